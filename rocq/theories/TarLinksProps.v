(** * C116: reading files in tar archives with links *)
From Verif Require Import Prelude PyStr TextLib Utf8 Io Fs TarMain TarLinks.
Local Open Scope nat_scope.

(** ** Specification *)
(** [i] is the last place before [n] where [P] holds *)
Definition last_place (P : tmember -> Prop) (ms : list tmember) (n i : nat) : Prop :=
  i < n /\ (exists m, nth_error ms i = Some m /\ P m) /\ forall j m, i < j -> j < n -> nth_error ms j = Some m -> ~ P m.
(** the file name asked for: the last member of exactly this name *)
Definition named (ms : list tmember) (name : str) (i : nat) : Prop := last_place (fun m => fst m = name) ms (length ms) i.
(** where a link leads: a symbolic link, taken from the directory of its own name, to the last member at that place in the archive; a hard link to the last member at that place before it *)
Definition from_directory (name linkname : str) : str := py_join [slash] (filter (fun s => negb (is_nil s)) [dirname name; linkname]).
Definition target (ms : list tmember) (i : nat) (j : nat) : Prop :=
  exists name l, nth_error ms i = Some (name, ESym l) /\ last_place (fun m => normpath (fst m) = normpath (from_directory name l)) ms (length ms) j \/
                 nth_error ms i = Some (name, EHard l) /\ last_place (fun m => normpath (fst m) = normpath l) ms i j.
Definition is_link (m : tmember) : Prop := exists l, snd m = ESym l \/ snd m = EHard l.
(** following [n] links from [i] leads to [j] *)
Inductive follows (ms : list tmember) : nat -> nat -> nat -> Prop :=
| Here i : follows ms i 0 i
| Next i k n j : target ms i k -> follows ms k n j -> follows ms i (S n) j.
(** where the links end: at a file, at something that is no file, or at a link to nowhere *)
Definition dead_end (ms : list tmember) (j : nat) : Prop := (exists m, nth_error ms j = Some m /\ is_link m) /\ forall k, ~ target ms j k.

(** ** Proofs *)
Lemma last_index_spec (P : tmember -> bool) ms : match last_index P ms with
  | Some i => last_place (fun m => P m = true) ms (length ms) i
  | None => forall m, In m ms -> P m = false
  end.
Proof.
  induction ms as [|m r IH]; cbn [last_index]; [intros m []|]. destruct (last_index P r) as [i|].
  - destruct IH as (L & (m' & E & H) & A). split; [cbn; lia|]. split; [exists m'; split; [exact E|exact H]|]. intros [|j] m2 J1 J2 E2; [lia|]. cbn in J2, E2. apply (A j m2); [lia|lia|exact E2].
  - destruct (P m) eqn:Pm.
    + split; [cbn; lia|]. split; [exists m; auto|]. intros [|j] m2 J1 J2 E2; [lia|]. cbn in E2. apply nth_error_In in E2. rewrite (IH _ E2). discriminate.
    + intros m' [<-|J]; auto.
Qed.
Lemma last_place_unique P ms n i j : last_place P ms n i -> last_place P ms n j -> i = j.
Proof.
  intros (L1 & (m1 & E1 & H1) & A1) (L2 & (m2 & E2 & H2) & A2). destruct (Nat.lt_trichotomy i j) as [C|[C|C]]; [|exact C|]; exfalso; [exact (A1 j m2 C L2 E2 H2)|exact (A2 i m1 C L1 E1 H1)].
Qed.
Lemma last_index_iff (P : tmember -> bool) (Q : tmember -> Prop) ms i : (forall m, P m = true <-> Q m) -> (last_index P ms = Some i <-> last_place Q ms (length ms) i).
Proof.
  intros H. assert (S := last_index_spec P ms). assert (C : forall i, last_place (fun m => P m = true) ms (length ms) i <-> last_place Q ms (length ms) i).
  { intros k. unfold last_place. split; intros (L & (m & E & X) & A); (split; [exact L|]); (split; [exists m; split; [exact E|now apply H]|]); intros j m' J1 J2 E' X'; apply (A j m' J1 J2 E'); now apply H. }
  split.
  - intros E. rewrite E in S. now apply C.
  - intros X. destruct (last_index P ms) as [k|] eqn:E.
    + apply C in S. now rewrite (last_place_unique _ _ _ _ _ S X).
    + destruct X as (_ & (m & E' & X) & _). apply nth_error_In in E'. apply H in X. rewrite (S m E') in X. discriminate.
Qed.
Lemma last_index_none (P : tmember -> bool) (Q : tmember -> Prop) ms : (forall m, P m = true <-> Q m) -> (last_index P ms = None <-> forall i, ~ last_place Q ms (length ms) i).
Proof.
  intros H. split.
  - intros E i X. apply (last_index_iff P Q ms i H) in X. congruence.
  - intros A. destruct (last_index P ms) as [k|] eqn:E; [|reflexivity]. exfalso. apply (A k). now apply (last_index_iff P Q ms k H).
Qed.
Lemma eqb_iff (f : tmember -> str) (s : str) m : str_eqb (f m) s = true <-> f m = s.
Proof. apply str_eqb_eq. Qed.
Lemma getmember_spec ms name i : getmember ms name = Some i <-> named ms name i.
Proof. apply last_index_iff. intros m. apply (eqb_iff fst). Qed.
Lemma getmember_none ms name : getmember ms name = None <-> forall i, ~ named ms name i.
Proof. apply last_index_none. intros m. apply (eqb_iff fst). Qed.
Lemma nth_error_front {A} (l : list A) : forall n i, i < n -> nth_error (firstn n l) i = nth_error l i.
Proof. induction l as [|x l IH]; intros [|n] i L; try lia; [now destruct i|]. destruct i as [|i]; [reflexivity|]. cbn. apply IH. lia. Qed.
Lemma last_place_front P ms n i : n <= length ms -> (last_place P (firstn n ms) (length (firstn n ms)) i <-> last_place P ms n i).
Proof.
  intros L. rewrite firstn_length, Nat.min_l by exact L. unfold last_place. split; intros (Li & (m & E & X) & A); (split; [exact Li|]); (split; [exists m; split; [|exact X]; rewrite nth_error_front in * by exact Li; exact E|]);
    intros j m' J1 J2 E' X'; apply (A j m' J1 J2); [rewrite nth_error_front by exact J2; exact E'|exact X'|rewrite nth_error_front in E' by exact J2; exact E'|exact X'].
Qed.
Lemma from_directory_eq name l : (match dirname name, l with [], l => l | d, [] => d | d, l => d ++ [slash] ++ l end) = from_directory name l.
Proof. unfold from_directory. destruct (dirname name) as [|c d], l as [|c' l']; cbn; try reflexivity; now rewrite ?app_nil_r. Qed.
Lemma sym_spec ms name l j : sym_target ms name l = Some j <-> last_place (fun m => normpath (fst m) = normpath (from_directory name l)) ms (length ms) j.
Proof. unfold sym_target. rewrite from_directory_eq. apply last_index_iff. intros m. apply (eqb_iff (fun m => normpath (fst m))). Qed.
Lemma hard_spec ms i l j : i <= length ms -> (hard_target ms i l = Some j <-> last_place (fun m => normpath (fst m) = normpath l) ms i j).
Proof. intros L. unfold hard_target. rewrite <- (last_place_front _ _ _ _ L). apply last_index_iff. intros m. apply (eqb_iff (fun m => normpath (fst m))). Qed.
Lemma nth_len {A} (l : list A) i x : nth_error l i = Some x -> i < length l.
Proof. intros E. apply nth_error_Some. congruence. Qed.
Lemma target_unique ms i j k : target ms i j -> target ms i k -> j = k.
Proof.
  intros (n1 & l1 & [(E1 & P1)|(E1 & P1)]) (n2 & l2 & [(E2 & P2)|(E2 & P2)]); rewrite E1 in E2; try discriminate; injection E2 as <- <-; exact (last_place_unique _ _ _ _ _ P1 P2).
Qed.
(** one step of extractfile *)
Lemma extract_step limit ms i :
  (forall name d, nth_error ms i = Some (name, EFile d) -> extractfile (S limit) ms i = Ok (Some d)) /\
  (forall m, nth_error ms i = Some m -> snd m = EOther -> extractfile (S limit) ms i = Ok None) /\
  (forall j, target ms i j -> extractfile (S limit) ms i = extractfile limit ms j) /\
  (dead_end ms i -> extractfile (S limit) ms i = Raise KeyError).
Proof.
  cbn [extractfile]. split; [intros name d ->; reflexivity|]. split; [intros [name e] -> E; cbn in E; subst e; reflexivity|]. split.
  - intros j (name & l & [(E & P)|(E & P)]); rewrite E; [apply sym_spec in P; now rewrite P|]. apply hard_spec in P; [now rewrite P|]. apply nth_len in E. lia.
  - intros (([name e] & E & l & [H|H]) & A); cbn in H; subst e; rewrite E.
    + destruct (sym_target ms name l) as [j|] eqn:T; [|reflexivity]. exfalso. apply (A j). exists name, l. left. split; [exact E|now apply sym_spec].
    + destruct (hard_target ms i l) as [j|] eqn:T; [|reflexivity]. exfalso. apply (A j). exists name, l. right. split; [exact E|]. apply hard_spec; [apply nth_len in E; lia|exact T].
Qed.
Lemma extract_follows ms i n j : follows ms i n j -> forall limit, extractfile (n + limit) ms i = extractfile limit ms j.
Proof. induction 1 as [i|i k n j T F IH]; intros limit; [reflexivity|]. cbn [plus]. destruct (extract_step (n + limit) ms i) as (_ & _ & S & _). rewrite (S k T). apply IH. Qed.
Lemma target_in ms i j : target ms i j -> i < length ms /\ j < length ms.
Proof.
  intros (name & l & [(E & P)|(E & P)]); (split; [exact (nth_len _ _ _ E)|]).
  - destruct P as (L & _). exact L.
  - destruct P as (L & _). apply nth_len in E. lia.
Qed.
(** every place is of one kind *)
Lemma kinds ms i : i < length ms -> (exists name d, nth_error ms i = Some (name, EFile d)) \/ (exists m, nth_error ms i = Some m /\ snd m = EOther) \/ (exists j, target ms i j) \/ dead_end ms i.
Proof.
  intros L. destruct (nth_error ms i) as [[name e]|] eqn:E; [|apply nth_error_None in E; lia]. destruct e as [d|l|l|].
  - left. eauto.
  - right; right. destruct (sym_target ms name l) as [j|] eqn:T.
    + left. exists j, name, l. left. split; [exact E|now apply sym_spec].
    + right. split; [exists (name, ESym l); split; [exact E|exists l; now left]|]. intros k (n2 & l2 & [(E2 & P)|(E2 & P)]); rewrite E in E2; [|discriminate]. injection E2 as <- <-. apply sym_spec in P. congruence.
  - right; right. destruct (hard_target ms i l) as [j|] eqn:T.
    + left. exists j, name, l. right. split; [exact E|]. apply hard_spec; [lia|exact T].
    + right. split; [exists (name, EHard l); split; [exact E|exists l; now right]|]. intros k (n2 & l2 & [(E2 & P)|(E2 & P)]); rewrite E in E2; [discriminate|]. injection E2 as <- <-. apply hard_spec in P; [congruence|lia].
  - right; left. eexists. split; [reflexivity|reflexivity].
Qed.
Lemma follows_in ms i n j : follows ms i n j -> i < length ms -> j < length ms.
Proof. induction 1 as [|i k n j T F IH]; [auto|]. intros _. apply IH. exact (proj2 (target_in _ _ _ T)). Qed.
Lemma follows_snoc ms i n j k : follows ms i n j -> target ms j k -> follows ms i (S n) k.
Proof. induction 1 as [i|i k' n j T F IH]; intros T2; [econstructor; [exact T2|constructor]|]. econstructor; [exact T|auto]. Qed.
(** from a place, either the links end within [n] steps or [n] links can be followed *)
Lemma how_far ms i : i < length ms -> forall n, (exists k j, k < n /\ follows ms i k j /\ forall j', ~ target ms j j') \/ exists j, follows ms i n j.
Proof.
  intros L. induction n as [|n IH]; [right; exists i; constructor|]. destruct IH as [(k & j & K & F & D)|(j & F)]; [left; exists k, j; split; [lia|auto]|].
  destruct (kinds ms j (follows_in _ _ _ _ F L)) as [(name & d & E)|[(m & E & O)|[(k & T)|(_ & D)]]].
  - left. exists n, j. split; [lia|]. split; [exact F|]. intros j' (n2 & l2 & [(E2 & _)|(E2 & _)]); congruence.
  - left. exists n, j. split; [lia|]. split; [exact F|]. intros j' (n2 & l2 & [(E2 & _)|(E2 & _)]); rewrite E2 in E; injection E as <-; discriminate.
  - right. exists k. exact (follows_snoc _ _ _ _ _ F T).
  - left. exists n, j. auto.
Qed.

Section TarLinks.
Variable gunzip : bytes -> res bytes.
Variable untar : bytes -> res (list tmember).
Notation open_tgz := (open_tgz gunzip untar).
Notation tgz_text := (tgz_text gunzip untar).
Notation tgz_is_empty := (tgz_is_empty gunzip untar).

(** ** Theorems *)
(** C116: reading follows the links: the text is that of the file at their end; the errors for a name that is not there, for the end of the links being no file or not there, and for more links than Python nests calls. *)
Theorem C116_read : forall limit dec w p name ms, open_tgz w p = Ok ms ->
  (forall i n j name' d, named ms name i -> follows ms i n j -> n < limit -> nth_error ms j = Some (name', EFile d) -> tgz_text limit dec w p name = dec d) /\
  ((forall i, ~ named ms name i) -> tgz_text limit dec w p name = Raise KeyError) /\
  (forall i n j, named ms name i -> follows ms i n j -> n < limit -> dead_end ms j -> tgz_text limit dec w p name = Raise KeyError) /\
  (forall i n j m, named ms name i -> follows ms i n j -> n < limit -> nth_error ms j = Some m -> snd m = EOther -> tgz_text limit dec w p name = Raise IOError) /\
  (forall i j, named ms name i -> follows ms i limit j -> tgz_text limit dec w p name = Raise RecursionError).
Proof.
  intros limit dec w p name ms O. unfold TarLinks.tgz_text. rewrite O. cbn [bind]. 
  assert (G : forall i n j, named ms name i -> follows ms i n j -> n < limit -> exists l, getmember ms name = Some i /\ extractfile limit ms i = extractfile (S l) ms j).
  { intros i n j N F L. exists (limit - n - 1). split; [now apply getmember_spec|]. rewrite <- (extract_follows ms i n j F). f_equal. lia. }
  split; [|split; [|split; [|split]]].
  - intros i n j name' d N F L E. destruct (G i n j N F L) as (l & -> & ->). rewrite (proj1 (extract_step l ms j) _ _ E). reflexivity.
  - intros A. apply getmember_none in A. now rewrite A.
  - intros i n j N F L D. destruct (G i n j N F L) as (l & -> & ->). destruct (extract_step l ms j) as (_ & _ & _ & X). rewrite (X D). reflexivity.
  - intros i n j m N F L E Om. destruct (G i n j N F L) as (l & -> & ->). destruct (extract_step l ms j) as (_ & X & _). rewrite (X m E Om). reflexivity.
  - intros i j N F. apply getmember_spec in N. rewrite N. assert (X := extract_follows ms i limit j F 0). rewrite Nat.add_0_r in X. rewrite X. reflexivity.
Qed.
(** C116: these are all cases. *)
Theorem C116_cases : forall limit ms name, (forall i, ~ named ms name i) \/ exists i, named ms name i /\
  ((exists n j name' d, follows ms i n j /\ n < limit /\ nth_error ms j = Some (name', EFile d)) \/ (exists n j, follows ms i n j /\ n < limit /\ dead_end ms j) \/
   (exists n j m, follows ms i n j /\ n < limit /\ nth_error ms j = Some m /\ snd m = EOther) \/ exists j, follows ms i limit j).
Proof.
  intros limit ms name. destruct (getmember ms name) as [i|] eqn:E; [right|left; now apply getmember_none]. apply getmember_spec in E. exists i. split; [exact E|]. assert (L : i < length ms) by apply E.
  destruct (how_far ms i L limit) as [(k & j & K & F & D)|(j & F)]; [|right; right; right; eauto]. destruct (kinds ms j (follows_in _ _ _ _ F L)) as [(n' & d & E')|[(m & E' & Om)|[(j' & T)|DE]]].
  - left. exists k, j, n', d. auto.
  - right; right; left. exists k, j, m. auto.
  - exfalso. exact (D _ T).
  - right; left. exists k, j. auto.
Qed.
(** C116: hard links always lead backwards, so without symbolic links (and with at most as many members as Python nests calls) reading ends. *)
Theorem C116_hard_links : forall limit dec w p name ms, open_tgz w p = Ok ms -> length ms <= limit -> (forall n l, ~ In (n, ESym l) ms) ->
  tgz_text limit dec w p name = Raise RecursionError -> exists d n', In (n', EFile d) ms /\ dec d = Raise RecursionError.
Proof.
  intros limit dec w p name ms O L NS R. assert (B : forall i n j, follows ms i n j -> i < length ms -> n + j <= i).
  { induction 1 as [i|i k n j T F IH]; intros Li; [lia|]. assert (K := proj2 (target_in _ _ _ T)). specialize (IH K). destruct T as (nm & l & [(E & _)|(E & P)]); [exfalso; exact (NS _ _ (nth_error_In _ _ E))|]. destruct P as (P & _). lia. }
  destruct (C116_read limit dec w p name ms O) as (A1 & A2 & A3 & A4 & A5). destruct (C116_cases limit ms name) as [N|(i & N & [(n & j & n' & d & F & Ln & E)|[(n & j & F & Ln & D)|[(n & j & m & F & Ln & E & Om)|(j & F)]]])].
  - rewrite (A2 N) in R. discriminate.
  - rewrite (A1 i n j n' d N F Ln E) in R. exists d, n'. split; [exact (nth_error_In _ _ E)|exact R].
  - rewrite (A3 i n j N F Ln D) in R. discriminate.
  - rewrite (A4 i n j m N F Ln E Om) in R. discriminate.
  - assert (X : i < length ms) by apply N. assert (Y := B _ _ _ F X). lia.
Qed.
(** C116: is_empty looks at the size in the member itself: for a regular file it tells whether there is data, for a link it always says that there is none. *)
Theorem C116_is_empty : forall w p name ms, open_tgz w p = Ok ms ->
  (forall i name' d, named ms name i -> nth_error ms i = Some (name', EFile d) -> exists e, tgz_is_empty w p name = Ok e /\ (e = true <-> d = [])) /\
  (forall i m, named ms name i -> nth_error ms i = Some m -> (forall d, snd m <> EFile d) -> tgz_is_empty w p name = Ok true) /\
  ((forall i, ~ named ms name i) -> tgz_is_empty w p name = Raise KeyError).
Proof.
  intros w p name ms O. unfold TarLinks.tgz_is_empty. rewrite O. cbn [bind]. split; [|split].
  - intros i name' d N E. apply getmember_spec in N. rewrite N, E. exists (is_nil d). split; [reflexivity|]. destruct d; cbn; split; congruence.
  - intros i [n e] N E H. apply getmember_spec in N. rewrite N, E. destruct e as [d| | |]; [exfalso; exact (H d eq_refl)|reflexivity..].
  - intros A. apply getmember_none in A. now rewrite A.
Qed.
End TarLinks.

(** ** Archives without links are those of Io.v *)
Definition plain_entry (m : tmember) : member := {| m_name := fst m; m_isfile := match snd m with EFile _ => true | _ => false end; m_data := match snd m with EFile d => Some d | _ => None end |}.
Lemma find_rev (P : tmember -> bool) ms : find P (rev ms) = match last_index P ms with Some i => nth_error ms i | None => None end.
Proof.
  assert (FA : forall a b : list tmember, find P (a ++ b) = match find P a with Some x => Some x | None => find P b end) by (induction a as [|x a IH]; intros b; cbn; [reflexivity|]; destruct (P x); [reflexivity|apply IH]).
  induction ms as [|m r IH]; [reflexivity|]. cbn [rev last_index]. rewrite FA, IH. assert (S := last_index_spec P r). destruct (last_index P r) as [i|].
  - destruct S as (_ & (m' & E & _) & _). cbn [nth_error]. now rewrite E.
  - cbn. destruct (P m); reflexivity.
Qed.
(** C116: for archives without links this is the model of C65. *)
Theorem C116_without_links : forall ZC gunzip untar limit dec w p name, 0 < limit ->
  (forall b ms, untar b = Ok ms -> forall n e, In (n, e) ms -> ~ is_link (n, e)) ->
  tgz_text gunzip untar limit dec w p name = text ZC gunzip (fun b => let* ms := untar b in Ok (map plain_entry ms)) w (CTgz p name dec) /\
  tgz_is_empty gunzip untar w p name = is_empty ZC gunzip (fun b => let* ms := untar b in Ok (map plain_entry ms)) w (CTgz p name dec).
Proof.
  intros ZC gunzip untar limit dec w p name Lp NL. unfold tgz_text, tgz_is_empty, open_tgz, text, is_empty. destruct (read_file w p) as [b|e]; cbn [bind]; [|split; reflexivity]. destruct (gunzip b) as [u|e]; cbn [bind]; [|split; reflexivity].
  destruct (untar u) as [ms|e] eqn:U; cbn [bind]; [|split; reflexivity]. rewrite <- map_rev. assert (F : find (fun m : member => str_eqb (m_name m) name) (map plain_entry (rev ms)) = option_map plain_entry (find (fun m => str_eqb (fst m) name) (rev ms))).
  { induction (rev ms) as [|m r IH]; [reflexivity|]. cbn. destruct (str_eqb (fst m) name); [reflexivity|exact IH]. }
  rewrite F, find_rev. unfold getmember. assert (S := last_index_spec (fun m => str_eqb (fst m) name) ms). destruct (last_index _ ms) as [i|]; [|split; reflexivity].
  destruct S as (_ & ([n e] & E & _) & _). assert (K := NL u ms U n e (nth_error_In _ _ E)). rewrite E. cbn [option_map]. destruct limit as [|limit]; [lia|]. cbn [extractfile]. rewrite E.
  destruct e as [d|l|l|]; [split; reflexivity|exfalso; apply K; exists l; now left|exfalso; apply K; exists l; now right|split; reflexivity].
Qed.
