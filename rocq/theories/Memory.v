(** * Model of memory_amount.py, and its theorems (C69) *)
From Verif Require Import Prelude PyStr Decimals.

(** memory_amount.py:12-22 *)
Inductive memory_unit := KILOBYTES | MEGABYTES | GIGABYTES | TERABYTES.
(** MemoryUnit.parse, 24-40: [upper] is str.upper; the table, 43-50 *)
Section Memory.
Variable upper : str -> str.
(** Unicode decimal digits: the value of a character that the \d of the regular expression matches *)
Variable digit : N -> option N.
(** memory_amount.py:24-40 *)
Definition unit_parse (s : str) : res memory_unit :=
  let u := upper s in
  if str_eqb u !!"K" then Ok KILOBYTES
  else if str_eqb u !!"M" then Ok MEGABYTES
  else if str_eqb u !!"G" then Ok GIGABYTES
  else if str_eqb u !!"T" then Ok TERABYTES
  else Raise RuntimeError.
(** The pattern (\d+) ?([TtGgMmKk])[bB]? of line 64, matched at the start of the string.  The digits are taken greedily; giving some of
    them back cannot help, since what follows must be a space or a letter.  [bB]? does not matter for the groups. *)
Fixpoint take_digits (s : str) : list N * str :=
  match s with
  | c :: r => match digit c with Some d => let '(ds, rest) := take_digits r in (d :: ds, rest) | None => ([], s) end
  | [] => ([], [])
  end.
(** the class [TtGgMmKk] of the pattern, memory_amount.py:63 *)
Definition is_unit (c : N) : bool := existsb (N.eqb c) !!"TtGgMmKk".
(** re.match with the pattern of memory_amount.py:63 *)
Definition pattern_match (s : str) : option (list N * N) :=
  let '(ds, r) := take_digits s in
  match ds with
  | [] => None
  | _ => match r with
         | c :: r' => if (c =? 32)%N then match r' with u :: _ => if is_unit u then Some (ds, u) else None | [] => None end
                      else if is_unit c then Some (ds, c) else None
         | [] => None
         end
  end.
(** MemoryAmount, 53-63: the validator requires an int in Range.at_least(1); in_ raises ValueError *)
Definition memory_amount (amount : N) (u : memory_unit) : res (N * memory_unit) :=
  if (1 <=? amount)%N then Ok (amount, u) else Raise ValueError.
(** MemoryAmount.parse, 65-76.  (Recent versions of Python also raise ValueError for more than 4300 digits; not modelled.) *)
Definition memory_parse (s : str) : res (N * memory_unit) :=
  match pattern_match s with
  | Some (ds, u) => let* un := unit_parse [u] in memory_amount (digits_value ds) un
  | None => Raise RuntimeError
  end.
End Memory.

(** ** Specification *)
(** What is assumed of Python: the ASCII letters and digits are as usual. *)
Definition python_chars (upper : str -> str) (digit : N -> option N) : Prop :=
  (forall u, In u !!"TtGgMmKk" -> upper [u] = [if (u <? 97)%N then u else (u - 32)%N]) /\
  (forall c, (c < 128)%N -> digit c = if ((48 <=? c) && (c <=? 57))%N then Some (c - 48)%N else None).
(** specification: the letters naming a unit *)
Definition unit_letter (u : memory_unit) (c : N) : Prop :=
  match u with
  | KILOBYTES => In c !!"Kk" | MEGABYTES => In c !!"Mm" | GIGABYTES => In c !!"Gg" | TERABYTES => In c !!"Tt"
  end.
(** s starts with digits [ds], possibly a space, and the letter of unit u *)
Definition amount_of (digit : N -> option N) (s : str) (n : N) (u : memory_unit) : Prop :=
  exists cs ds sp c rest, s = cs ++ sp ++ [c] ++ rest /\ map digit cs = map Some ds /\ cs <> [] /\ (sp = [] \/ sp = !!" ") /\ unit_letter u c /\ n = digits_value ds.

Section Props.
Variable upper : str -> str.
Variable digit : N -> option N.
Hypothesis PC : python_chars upper digit.
Lemma letters u : In u !!"TtGgMmKk" -> digit u = None.
Proof using PC. destruct PC as (_ & D). intros H. simpl in H. repeat (destruct H as [<-|H]; [rewrite D by reflexivity; reflexivity|]). destruct H. Qed.
Lemma is_unit_spec c : is_unit c = true <-> In c !!"TtGgMmKk".
Proof using. unfold is_unit. rewrite existsb_exists. split; [intros (x & I & E); apply N.eqb_eq in E; now subst|intros I; exists c; split; [assumption|apply N.eqb_refl]]. Qed.
Lemma unit_parse_spec c : In c !!"TtGgMmKk" -> exists u, unit_parse upper [c] = Ok u /\ unit_letter u c.
Proof using PC.
  destruct PC as (U & _). intros H. unfold unit_parse. rewrite (U c H). simpl in H. repeat (destruct H as [<-|H]; [eexists; split; [reflexivity|simpl; auto]|]). destruct H.
Qed.
Lemma unit_letter_in u c : unit_letter u c -> In c !!"TtGgMmKk".
Proof using. destruct u; simpl; intuition. Qed.
Lemma unit_letter_fun u u' c : unit_letter u c -> unit_letter u' c -> u = u'.
Proof using. destruct u, u'; simpl; intros A B; auto; exfalso; repeat (destruct A as [A|A]; [subst; intuition discriminate|]); destruct A. Qed.
Lemma take_digits_app cs : forall ds r, map digit cs = map Some ds -> (forall c x, r = c :: x -> digit c = None) -> take_digits digit (cs ++ r) = (ds, r).
Proof using.
  induction cs as [|c cs IH]; intros [|d ds] r M H; try discriminate; simpl.
  - destruct r as [|c x]; [reflexivity|]. simpl. now rewrite (H c x eq_refl).
  - injection M as E M. rewrite E. now rewrite (IH ds r M H).
Qed.
Lemma take_digits_inv s : forall ds r, take_digits digit s = (ds, r) -> exists cs, s = cs ++ r /\ map digit cs = map Some ds /\ forall c x, r = c :: x -> digit c = None.
Proof using.
  induction s as [|c s IH]; intros ds r E; simpl in E; [injection E as <- <-; exists []; repeat split; discriminate|]. destruct (digit c) as [d|] eqn:D.
  - destruct (take_digits digit s) as [ds' r'] eqn:T. injection E as <- <-. destruct (IH ds' r' eq_refl) as (cs & -> & M & H). exists (c :: cs). simpl. rewrite D, M. auto.
  - injection E as <- <-. exists []. repeat split. intros c' x X. congruence.
Qed.
Lemma pattern_spec s ds u : pattern_match digit s = Some (ds, u) <->
  exists cs sp rest, s = cs ++ sp ++ [u] ++ rest /\ map digit cs = map Some ds /\ cs <> [] /\ (sp = [] \/ sp = !!" ") /\ In u !!"TtGgMmKk".
Proof using PC.
  assert (S : digit 32%N = None) by (destruct PC as (_ & D); now rewrite D).
  split.
  - unfold pattern_match. destruct (take_digits digit s) as [ds' r] eqn:T. destruct (take_digits_inv s ds' r T) as (cs & -> & M & H). destruct ds' as [|d ds']; [discriminate|]. destruct r as [|c r]; [discriminate|].
    assert (cs <> []) by (destruct cs; [discriminate|congruence]).
    destruct (N.eqb_spec c 32) as [->|NS].
    + destruct r as [|v r]; [discriminate|]. destruct (is_unit v) eqn:U; [|discriminate]. intros E. injection E as <- <-. apply is_unit_spec in U. exists cs, !!" ", r. repeat split; auto.
    + destruct (is_unit c) eqn:U; [|discriminate]. intros E. injection E as <- <-. apply is_unit_spec in U. exists cs, [], r. repeat split; auto.
  - intros (cs & sp & rest & -> & M & NE & SP & U). unfold pattern_match. rewrite (take_digits_app cs ds).
    + destruct ds as [|d ds]; [destruct cs; [congruence|discriminate]|]. assert (IU := proj2 (is_unit_spec u) U). destruct SP as [->| ->]; cbn -[N.eqb is_unit].
      * assert (u =? 32 = false)%N as -> by (simpl in U; repeat (destruct U as [<-|U]; [reflexivity|]); destruct U). now rewrite IU.
      * change (32 =? 32)%N with true. now rewrite IU.
    + assumption.
    + intros c x E. destruct SP as [->| ->]; simpl in E; injection E as <- _; [now apply letters|assumption].
Qed.
(** parse succeeds exactly on the strings starting with a positive integer, an optional space and a letter K, M, G or T of either case; the
    result is that integer and that unit. *)
Theorem C69_accepts : forall s n u, memory_parse upper digit s = Ok (n, u) <-> amount_of digit s n u /\ (1 <= n)%N.
Proof using PC.
  intros s n u. unfold memory_parse. split.
  - destruct (pattern_match digit s) as [[ds c]|] eqn:P; [|discriminate]. apply pattern_spec in P. destruct P as (cs & sp & rest & -> & M & NE & SP & U). destruct (unit_parse_spec c U) as (un & E & L). rewrite E. cbn [bind]. unfold memory_amount.
    destruct (N.leb_spec 1 (digits_value ds)) as [G|]; [|discriminate]. intros X. injection X as <- <-. split; [|assumption]. exists cs, ds, sp, c, rest. auto 10.
  - intros ((cs & ds & sp & c & rest & -> & M & NE & SP & L & ->) & G). rewrite (proj2 (pattern_spec _ ds c)); [|exists cs, sp, rest; repeat split; auto; now apply unit_letter_in in L].
    destruct (unit_parse_spec c (unit_letter_in _ _ L)) as (un & E & L'). rewrite E. cbn [bind]. rewrite (unit_letter_fun _ _ _ L L'). unfold memory_amount. assert (1 <=? digits_value ds = true)%N as -> by now apply N.leb_le. reflexivity.
Qed.
(** The two kinds of failure: ValueError for an amount of zero, RuntimeError if the string is not of that form. *)
Theorem C69_errors : forall s e, memory_parse upper digit s = Raise e <->
  (e = ValueError /\ exists u, amount_of digit s 0 u) \/ (e = RuntimeError /\ forall n u, ~ amount_of digit s n u).
Proof using PC.
  assert (Fun : forall s n n' u u', amount_of digit s n u -> amount_of digit s n' u' -> n = n' /\ u = u').
  { intros s n n' u u' (cs & ds & sp & c & rest & -> & M & NE & SP & L & ->) (cs' & ds' & sp' & c' & rest' & E & M' & NE' & SP' & L' & ->).
    assert (P : pattern_match digit (cs ++ sp ++ [c] ++ rest) = Some (ds, c)) by (apply pattern_spec; exists cs, sp, rest; repeat split; auto; now apply unit_letter_in in L).
    rewrite E in P. rewrite (proj2 (pattern_spec _ ds' c')) in P; [|exists cs', sp', rest'; repeat split; auto; now apply unit_letter_in in L']. injection P as -> ->. split; [reflexivity|]. eapply unit_letter_fun; eassumption. }
  intros s e. unfold memory_parse. destruct (pattern_match digit s) as [[ds c]|] eqn:P.
  - assert (P' := P). apply pattern_spec in P'. destruct P' as (cs & sp & rest & E & M & NE & SP & U). destruct (unit_parse_spec c U) as (un & Eu & L). rewrite Eu. cbn [bind]. unfold memory_amount.
    assert (A : amount_of digit s (digits_value ds) un) by (exists cs, ds, sp, c, rest; auto 10). destruct (N.leb_spec 1 (digits_value ds)) as [G|Z].
    + split; [discriminate|]. intros [(_ & u & A')|(_ & N)]; [destruct (Fun _ _ _ _ _ A A'); lia|destruct (N _ _ A)].
    + split; [intros X; injection X as <-; left; split; [reflexivity|]; exists un; replace 0%N with (digits_value ds) by lia; assumption|]. intros [(-> & _)|(_ & N)]; [reflexivity|destruct (N _ _ A)].
  - assert (N : forall n u, ~ amount_of digit s n u). { intros n u (cs & ds & sp & c & rest & -> & M & NE & SP & L & ->). rewrite (proj2 (pattern_spec _ ds c)) in P; [discriminate|]. exists cs, sp, rest; repeat split; auto; now apply unit_letter_in in L. }
    split; [intros X; injection X as <-; auto|]. intros [(_ & u & A)|(-> & _)]; [destruct (N _ _ A)|reflexivity].
Qed.
(** Written out in the usual way, every amount is read back: "<n>[ ]<letter>[b|B]". *)
Theorem C69_round_trip : forall n u sp c b, (1 <= n)%N -> unit_letter u c -> (sp = [] \/ sp = !!" ") -> (b = [] \/ b = !!"b" \/ b = !!"B") ->
  memory_parse upper digit (decimal n ++ sp ++ [c] ++ b) = Ok (n, u).
Proof using PC.
  intros n u sp c b G L SP _. apply C69_accepts. split; [|assumption]. exists (decimal n), (map (fun c => c - 48)%N (decimal n)), sp, c, b. split; [reflexivity|]. split; [|split; [apply decimal_nonempty|]; split; [assumption|]; split; [assumption|]; now rewrite decimal_value].
  rewrite map_map. apply map_ext_in. intros x Hx. apply decimal_digits in Hx. destruct PC as (_ & D). rewrite D by lia. assert ((48 <=? x) && (x <=? 57) = true)%N as -> by (apply andb_true_intro; split; apply N.leb_le; lia). reflexivity.
Qed.
(** The whole string need not be an amount: whatever follows the letter is ignored. *)
Theorem C69_whole_string_refuted : forall s n u junk, memory_parse upper digit s = Ok (n, u) -> memory_parse upper digit (s ++ junk) = Ok (n, u).
Proof using PC.
  intros s n u junk H. apply C69_accepts in H. destruct H as ((cs & ds & sp & c & rest & -> & M & NE & SP & L & ->) & G). apply C69_accepts. split; [|assumption]. exists cs, ds, sp, c, (rest ++ junk). rewrite <- !app_assoc. auto 10.
Qed.
End Props.

Example C69_witness : exists upper digit, python_chars upper digit /\ memory_parse upper digit !!"16 GB" = Ok (16%N, GIGABYTES) /\ memory_parse upper digit !!"4kibibytes" = Ok (4%N, KILOBYTES) /\
  memory_parse upper digit !!"0M" = Raise ValueError /\ memory_parse upper digit !!"-3M" = Raise RuntimeError /\ memory_parse upper digit !!"3  M" = Raise RuntimeError.
Proof.
  exists (map (fun u => if (u <? 97)%N then u else (u - 32)%N)), (fun c => if ((48 <=? c) && (c <=? 57))%N then Some (c - 48)%N else None).
  split; [split; reflexivity|]. repeat split.
Qed.
Print Assumptions C69_accepts.
Print Assumptions C69_errors.
Print Assumptions C69_round_trip.
Print Assumptions C69_whole_string_refuted.
