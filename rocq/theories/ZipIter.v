(** * C111: iterators over zip sources, entering and leaving, in any order
    (key_value.py: KeyValueSource.items 290-307, _ZipFileKeyValueSource 581-637, _InterpretedKeyValueSource 796-833, InterpretedLinearKeyValueSource 762-793)

    KeyValue.items is one complete iteration; ZipKeys.v models entering and leaving a source object.  Here the iterators of one source object are stepped through one next() at a time, between which
    the object may be left, entered again (the file having been rewritten) and looked into. *)
From Verif Require Import Prelude PyStr SortLib TextLib Utf8 Io KeyValue ZipKeys.

(** ** Model *)
Section Model.
Context {T V : Type}.
Variable kin : option (archive -> res (option (list str))).
Variable fname : str -> str.
(** _process_bytes (key_value.py:650-651, 680-681), and the function of an interpreted source *)
Variable process : bytes -> res T.
Variable interpretation : str -> T -> res V.

(** The source itself, KeyValueSource.interpret_values of it (key_value.py:386-397), or KeyValueLinearSource.interpret_values of it (key_value.py:231-249) *)
Inductive kind := Plain | Interpreted | Linear.
(** an iterator: its key_filter and the keys still to come; None if it has not been started (InterpretedLinearKeyValueSource.items asks for the wrapped iterator only then, key_value.py:777-786) *)
Record iter := Iter { it_kind : kind; it_filter : str -> bool; it_todo : option (list str) }.
(** the source object (key_value.py:581-592) and the iterators made *)
Record object := Object { ob_source : source_object; ob_iters : list iter }.
(** the calls: __enter__ (the file being as given), __exit__, items, next, source[key] (key_value.py:290-307, 598-602, 628-637) *)
Inductive call := Enter (d : disk) | Exit | Items (k : kind) (key_filter : str -> bool) | Next (i : nat) | Item (k : kind) (key : str).
(** what a call does (key_value.py:290-307, 598-602, 628-637) *)
Inductive outcome := Done | Raised (e : exn) | Iterator (i : nat) | Yielded (key : str) (v : T + V) | Stopped | Value (v : T + V).

(** source[key] of the source and of the interpreted ones around it (key_value.py:598-602, 825-826, 781-784) *)
Definition read (k : kind) (o : source_object) (key : str) : res (T + V) :=
  match k with
  | Plain => let* t := src_item (view fname process o) key in Ok (inl t)
  | Interpreted | Linear => let* v := src_item (interpreted interpretation (view fname process o)) key in Ok (inr v)
  end.
(** "keys = self.keys()", and an exception if it is None (key_value.py:293-307, 594-596, 808-809) *)
Definition all_keys (o : source_object) : res (list str) :=
  let* ks := src_keys (view fname process o) in opt_or_raise ks NotImplementedError.
(** the loop of the generator up to the next pair, key_value.py:297-300 *)
Fixpoint advance (item : str -> res (T + V)) (key_filter : str -> bool) (ks : list str) : list str * outcome :=
  match ks with
  | [] => ([], Stopped)
  | k :: r => if key_filter k then match item k with Ok v => (r, Yielded k v) | Raise e => ([], Raised e) end
              else advance item key_filter r
  end.
(** replace an iterator: a generator goes on (key_value.py:297-300) *)
Definition set_iter (l : list iter) (i : nat) (x : iter) : list iter := firstn i l ++ x :: skipn (S i) l.
(** next(iterator): key_value.py:297-300, 780-786 *)
Definition do_next (o : object) (i : nat) : object * outcome :=
  match nth_error (ob_iters o) i with
  | None => (o, Done)
  | Some it =>
      let put ks := Object (ob_source o) (set_iter (ob_iters o) i (Iter (it_kind it) (it_filter it) (Some ks))) in
      match match it_todo it with Some ks => Ok ks | None => all_keys (ob_source o) end with
      | Raise e => (put [], Raised e)
      | Ok ks => let '(ks', out) := advance (read (it_kind it) (ob_source o)) (it_filter it) ks in (put ks', out)
      end
  end.
(** one call: key_value.py:290-307, 598-602, 628-637, 777-793, 808-833 *)
Definition step (o : object) (c : call) : object * outcome :=
  let used (p : source_object * res unit) := (Object (fst p) (ob_iters o), match snd p with Ok _ => Done | Raise e => Raised e end) in
  match c with
  | Enter d => used (enter_source kin d (ob_source o))
  | Exit => used (exit_source (ob_source o))
  | Items k f => match k with
                 | Linear => (Object (ob_source o) (ob_iters o ++ [Iter k f None]), Iterator (length (ob_iters o)))
                 | _ => match all_keys (ob_source o) with
                        | Raise e => (o, Raised e)
                        | Ok ks => (Object (ob_source o) (ob_iters o ++ [Iter k f (Some ks)]), Iterator (length (ob_iters o)))
                        end
                 end
  | Next i => do_next o i
  | Item k key => (o, match read k (ob_source o) key with Ok v => Value v | Raise e => Raised e end)
  end.
(** a history of calls on the object of key_value.py:581-637, and what they did *)
Fixpoint run (o : object) (h : list call) : object * list outcome :=
  match h with [] => (o, []) | c :: r => let '(o1, x) := step o c in let '(o2, xs) := run o1 r in (o2, x :: xs) end.
(** key_value.py:581-592 *)
Definition fresh : object := Object new_source [].
End Model.
Arguments iter : clear implicits. Arguments object : clear implicits. Arguments outcome : clear implicits.
Arguments Done {T V}. Arguments Raised {T V}. Arguments Iterator {T V}. Arguments Yielded {T V}. Arguments Stopped {T V}. Arguments Value {T V}.

(** ** Specification *)
(** What entering and leaving there was in a history *)
Fixpoint entered (h : list call) : list use :=
  match h with [] => [] | Enter d :: r => ZipKeys.Enter d :: entered r | Exit :: r => ZipKeys.Exit :: entered r | _ :: r => entered r end.
(** Before every next() of iterator [i] in the history: what entering and leaving there had been ([l] before the history) *)
Fixpoint moments (i : nat) (l : list use) (h : list call) : list (list use) :=
  match h with
  | [] => []
  | Enter d :: r => moments i (l ++ [ZipKeys.Enter d]) r
  | Exit :: r => moments i (l ++ [ZipKeys.Exit]) r
  | Next j :: r => if (j =? i)%nat then l :: moments i l r else moments i l r
  | _ :: r => moments i l r
  end.
(** what the next() of iterator [i] did *)
Fixpoint nexts {T V} (i : nat) (h : list call) (os : list (outcome T V)) : list (outcome T V) :=
  match h, os with
  | Next j :: h', o :: os' => if (j =? i)%nat then o :: nexts i h' os' else nexts i h' os'
  | _ :: h', _ :: os' => nexts i h' os'
  | _, _ => []
  end.
(** An iterator over [ks] whose next() finds the source reading as given: the keys in order, each with what the source reads at that time, until there are none left or one cannot be read *)
Fixpoint ideal {T V} (ks : list str) (reads : list (str -> res (T + V))) : list (outcome T V) :=
  match reads with
  | [] => []
  | read :: rest => match ks with
                    | [] => Stopped :: ideal [] rest
                    | k :: r => match read k with Ok v => Yielded k v :: ideal r rest | Raise e => Raised e :: ideal [] rest end
                    end
  end.
(** the first [n] of the pairs, then the exception if there is one, then nothing *)
Fixpoint told {T V} (pairs : list (str * (T + V))) (e : option exn) (n : nat) : list (outcome T V) :=
  match n with
  | 0 => []
  | S n' => match pairs, e with
            | (k, v) :: r, _ => Yielded k v :: told r e n'
            | [], Some x => Raised x :: told [] None n'
            | [], None => Stopped :: told [] None n'
            end
  end.

(** ** Proofs *)
Section Proofs.
Context {T V : Type}.
Variable kin : option (archive -> res (option (list str))).
Variable fname : str -> str.
Variable process : bytes -> res T.
Variable interpretation : str -> T -> res V.
Notation run := (run kin fname process interpretation).
Notation step := (step kin fname process interpretation).
Notation read := (read fname process interpretation).
Notation all_keys := (all_keys fname process).

Lemma set_same (l : list iter) i x : (i < length l)%nat -> nth_error (set_iter l i x) i = Some x.
Proof. intros L. unfold set_iter. rewrite nth_error_app2 by (rewrite firstn_length; lia). rewrite firstn_length, Nat.min_l by lia. now rewrite Nat.sub_diag. Qed.
Lemma nth_firstn {B} (l : list B) n j : (j < n)%nat -> nth_error (firstn n l) j = nth_error l j.
Proof. revert n l. induction j as [|j IH]; intros [|n] l L; try lia; destruct l as [|b l]; cbn; try reflexivity. apply IH. lia. Qed.
Lemma nth_skipn {B} (l : list B) n j : nth_error (skipn n l) j = nth_error l (n + j).
Proof. revert l. induction n as [|n IH]; intros l; [reflexivity|]. destruct l as [|b l]; cbn; [now destruct j|apply IH]. Qed.
Lemma set_other (l : list iter) i j x : (i < length l)%nat -> i <> j -> nth_error (set_iter l i x) j = nth_error l j.
Proof.
  intros L N. unfold set_iter. destruct (Nat.ltb_spec j i) as [H|H].
  - rewrite nth_error_app1 by (rewrite firstn_length; lia). now apply nth_firstn.
  - rewrite nth_error_app2 by (rewrite firstn_length; lia). rewrite firstn_length, Nat.min_l by lia. destruct (j - i)%nat as [|m] eqn:E; [lia|]. cbn [nth_error]. rewrite nth_skipn. f_equal. lia.
Qed.
Lemma uses_app l u : uses kin (l ++ [u]) = fst (use_source kin (uses kin l) u).
Proof. unfold uses. now rewrite fold_left_app. Qed.
(** a loop of the generator is a step of the ideal iterator over the keys that pass the filter *)
Lemma advance_ideal item f ks reads : let '(ks', o) := advance (T := T) (V := V) item f ks in ideal (filter f ks) (item :: reads) = o :: ideal (filter f ks') reads.
Proof.
  induction ks as [|k ks IH]; [reflexivity|]. cbn [advance filter]. destruct (f k) eqn:F; [|exact IH]. cbn [ideal]. destruct (item k); reflexivity.
Qed.
(** the source is what entering and leaving made it *)
Lemma run_source h : forall o l, ob_source o = uses kin l -> ob_source (fst (run o h)) = uses kin (l ++ entered h).
Proof.
  assert (N : forall o i, ob_source (fst (do_next fname process interpretation o i)) = ob_source o).
  { intros o i. unfold do_next. destruct (nth_error (ob_iters o) i) as [it|]; [|reflexivity]. destruct (match it_todo it with Some ks => Ok ks | None => all_keys (ob_source o) end); [|reflexivity]. now destruct (advance _ _ _). }
  induction h as [|c h IH]; intros o l E; [cbn; now rewrite app_nil_r|]. cbn [ZipIter.run]. destruct (step o c) as [o1 x] eqn:S. destruct (run o1 h) as [o2 xs] eqn:R. cbn [fst].
  assert (K : forall l', ob_source o1 = uses kin l' -> ob_source o2 = uses kin (l' ++ entered h)). { intros l' H. specialize (IH o1 l' H). now rewrite R in IH. }
  destruct c as [d| |k f|i|k key]; cbn [entered ZipIter.step] in *.
  - change (l ++ ZipKeys.Enter d :: entered h) with (l ++ [ZipKeys.Enter d] ++ entered h). rewrite app_assoc. apply K. inversion S. cbn [ob_source]. rewrite E, uses_app. reflexivity.
  - change (l ++ ZipKeys.Exit :: entered h) with (l ++ [ZipKeys.Exit] ++ entered h). rewrite app_assoc. apply K. inversion S. cbn [ob_source]. rewrite E, uses_app. reflexivity.
  - apply K. destruct k; [destruct (all_keys (ob_source o))|destruct (all_keys (ob_source o))|]; inversion S; subst; exact E.
  - apply K. specialize (N o i). rewrite S in N. cbn [fst] in N. congruence.
  - apply K. inversion S; subst. exact E.
Qed.
(** an iterator among others *)
Lemma run_iter h : forall o l i it, ob_source o = uses kin l -> nth_error (ob_iters o) i = Some it ->
  nexts i h (snd (run o h)) =
  match it_todo it with
  | Some ks => ideal (filter (it_filter it) ks) (map (fun l => read (it_kind it) (uses kin l)) (moments i l h))
  | None => match moments i l h with
            | [] => []
            | m :: ms => match all_keys (uses kin m) with
                         | Raise e => Raised e :: map (fun _ => Stopped) ms
                         | Ok ks => ideal (filter (it_filter it) ks) (map (fun l => read (it_kind it) (uses kin l)) (m :: ms))
                         end
            end
  end.
Proof.
  induction h as [|c h IH]; intros o l i it E Hi; [cbn; now destruct (it_todo it)|]. cbn [ZipIter.run]. destruct (step o c) as [o1 x] eqn:S. specialize (IH o1). destruct (run o1 h) as [o2 xs] eqn:R. cbn [fst snd] in *.
  assert (Fin : forall ms : list (list use), ideal [] (map (fun l => read (it_kind it) (uses kin l)) ms) = map (fun _ => @Stopped T V) ms). { intros ms. induction ms as [|m ms IHm]; [reflexivity|]. cbn. now rewrite IHm. }
  destruct c as [d| |k f|j|k key]; cbn [nexts moments ZipIter.step] in *.
  - apply IH; inversion S; cbn [ob_source ob_iters]; [rewrite E, uses_app; reflexivity|exact Hi].
  - apply IH; inversion S; cbn [ob_source ob_iters]; [rewrite E, uses_app; reflexivity|exact Hi].
  - assert (A : forall y, nth_error (ob_iters o ++ [y]) i = Some it) by (intros y; rewrite nth_error_app1; [exact Hi|apply nth_error_Some; congruence]).
    apply IH; destruct k; [destruct (all_keys (ob_source o))|destruct (all_keys (ob_source o))| |destruct (all_keys (ob_source o))|destruct (all_keys (ob_source o))|]; inversion S; subst; cbn [ob_source ob_iters]; auto.
  - unfold do_next in S. destruct (Nat.eqb_spec j i) as [->|N].
    + rewrite Hi in S. assert (L : (i < length (ob_iters o))%nat) by (apply nth_error_Some; congruence). rewrite E in S. destruct (it_todo it) as [ks|] eqn:Td.
      * assert (Ad := advance_ideal (read (it_kind it) (uses kin l)) (it_filter it) ks (map (fun l => read (it_kind it) (uses kin l)) (moments i l h))). destruct (advance _ _ _) as [ks' out]. inversion S; subst. cbn [map]. rewrite Ad. f_equal.
        rewrite (IH l i _ eq_refl (set_same _ _ _ L)). reflexivity.
      * destruct (all_keys (uses kin l)) as [ks|e].
        -- assert (Ad := advance_ideal (read (it_kind it) (uses kin l)) (it_filter it) ks (map (fun l => read (it_kind it) (uses kin l)) (moments i l h))). destruct (advance _ _ _) as [ks' out]. inversion S; subst. cbn [map]. rewrite Ad. f_equal.
           rewrite (IH l i _ eq_refl (set_same _ _ _ L)). reflexivity.
        -- inversion S; subst. f_equal. rewrite (IH l i _ eq_refl (set_same _ _ _ L)). cbn [it_todo it_kind it_filter filter]. apply Fin.
    + apply IH; destruct (nth_error (ob_iters o) j) as [jt|] eqn:Hj; [| | |]; try (inversion S; subst; assumption).
      * destruct (match it_todo jt with Some ks => Ok ks | None => all_keys (ob_source o) end); [destruct (advance _ _ _)|]; inversion S; subst; exact E.
      * assert (L : (j < length (ob_iters o))%nat) by (apply nth_error_Some; congruence).
        destruct (match it_todo jt with Some ks => Ok ks | None => all_keys (ob_source o) end); [destruct (advance _ _ _)|]; inversion S; subst; cbn [ob_iters]; (rewrite set_other; assumption).
  - apply IH; inversion S; subst; assumption.
Qed.
Lemma run_app h1 : forall h2 o, run o (h1 ++ h2) = let '(o1, x1) := run o h1 in let '(o2, x2) := run o1 h2 in (o2, x1 ++ x2).
Proof. induction h1 as [|c h1 IH]; intros h2 o; cbn; [now destruct (run o h2)|]. destruct (step o c) as [o1 x]. rewrite IH. destruct (run o1 h1) as [o2 xs]. now destruct (run o2 h2). Qed.

(** *** C111 *)
(** Any history: items() asks for the keys at once (the interpretation of a linear source: at the first next()), and fails if the source is not entered or does not know its keys.  After that every next() gives the next of these
    keys that passes the filter, with what the source holds for it at that moment.  Other iterators and lookups make no difference. *)
Theorem C111_any : forall h1 k f h2, let '(o1, x1) := run fresh h1 in let '(o2, x) := step o1 (Items k f) in let x2 := snd (run o2 h2) in
  let now := uses kin (entered h1) in let i := length (ob_iters o1) in let ms := moments i (entered h1) h2 in let reads := map (fun l => read k (uses kin l)) ms in
  match k with
  | Linear => x = Iterator i /\ nexts i h2 x2 = match ms with
                                              | [] => []
                                              | m :: r => match src_keys (view fname process (uses kin m)) with
                                                          | Ok (Some ks) => ideal (filter f ks) reads
                                                          | Ok None => Raised NotImplementedError :: map (fun _ => Stopped) r
                                                          | Raise e => Raised e :: map (fun _ => Stopped) r
                                                          end
                                              end
  | _ => match src_keys (view fname process now) with
         | Ok (Some ks) => x = Iterator i /\ nexts i h2 x2 = ideal (filter f ks) reads
         | Ok None => x = Raised NotImplementedError
         | Raise e => x = Raised e
         end
  end.
Proof.
  intros h1 k f h2. assert (So := run_source h1 fresh [] eq_refl). destruct (run fresh h1) as [o1 x1] eqn:R1. cbn [fst app] in So.
  assert (New : forall it, nth_error (ob_iters o1 ++ [it]) (length (ob_iters o1)) = Some it) by (intros it; rewrite nth_error_app2, Nat.sub_diag; [reflexivity|lia]).
  assert (Go : forall it, it_kind it = k -> it_filter it = f -> nexts (length (ob_iters o1)) h2 (snd (run (Object (ob_source o1) (ob_iters o1 ++ [it])) h2)) = _) by (intros it _ _; exact (run_iter h2 (Object (ob_source o1) (ob_iters o1 ++ [it])) (entered h1) _ it So (New it))).
  cbn [ZipIter.step]. unfold ZipIter.all_keys in *. destruct k.
  - rewrite So. destruct (src_keys (view fname process (uses kin (entered h1)))) as [[ks|]|e] eqn:K; cbn [bind opt_or_raise]; try reflexivity. split; [reflexivity|]. rewrite <- So. rewrite Go; reflexivity.
  - rewrite So. destruct (src_keys (view fname process (uses kin (entered h1)))) as [[ks|]|e] eqn:K; cbn [bind opt_or_raise]; try reflexivity. split; [reflexivity|]. rewrite <- So. rewrite Go; reflexivity.
  - split; [reflexivity|]. rewrite Go by reflexivity. cbn [it_todo it_kind it_filter]. destruct (moments _ _ h2) as [|m ms]; [reflexivity|]. destruct (src_keys (view fname process (uses kin m))) as [[ks|]|e]; reflexivity.
Qed.
(** no entering and leaving *)
Lemma moments_same i l h : entered h = [] -> exists n, moments i l h = repeat l n.
Proof.
  revert l. induction h as [|c h IH]; intros l E; [now exists 0|]. destruct c; cbn in *; try discriminate; try (now apply IH). destruct (IH l E) as (n & Hn). destruct (i0 =? i)%nat; [exists (S n)|exists n]; now rewrite Hn.
Qed.
Lemma moments_length i h : forall l, length (moments i l h) = length (filter (fun c => match c with Next j => (j =? i)%nat | _ => false end) h).
Proof. induction h as [|c h IH]; intros l; [reflexivity|]. destruct c; cbn; auto. destruct (i0 =? i)%nat; cbn; auto. Qed.
Lemma told_end n : told (T := T) (V := V) [] None n = repeat Stopped n.
Proof. induction n as [|n IH]; cbn; [reflexivity|now rewrite IH]. Qed.
Lemma ideal_end n (g : str -> res (T + V)) : ideal [] (repeat g n) = repeat Stopped n.
Proof. induction n as [|n IH]; cbn; [reflexivity|now rewrite IH]. Qed.
Lemma ideal_told (g : str -> res (T + V)) (f : str -> bool) ks n : let '(ys, e) := yield_all (fun k => if f k then let* v := g k in Ok (Some (k, v)) else Ok None) ks in ideal (filter f ks) (repeat g n) = told ys e n.
Proof.
  revert n. induction ks as [|k ks IH]; intros n; cbn [yield_all]; [cbn [filter]; rewrite ideal_end; symmetry; apply told_end|]. cbn [filter]. destruct (f k) eqn:F.
  - destruct (g k) as [v|e] eqn:G; cbn [bind].
    + destruct (yield_all _ ks) as [ys e]. destruct n as [|n]; [reflexivity|]. cbn [repeat ideal told]. rewrite G. now rewrite IH.
    + destruct n as [|n]; [reflexivity|]. cbn [repeat ideal told]. rewrite G. f_equal. rewrite ideal_end. symmetry. apply told_end.
  - apply IH.
Qed.
(** C111: in a "with" block, any number of iterators stepped through in any order, with any lookups between: each gives what one complete iteration gives (KeyValue.items): every key that passes the filter with its value, up to a
    value that cannot be read or interpreted, whose exception is raised once. *)
Theorem C111_inside : forall h1 k f h2 ks, src_keys (view fname process (uses kin (entered h1))) = Ok (Some ks) -> entered h2 = [] ->
  let o1 := fst (run fresh h1) in let x2 := snd (run (fst (step o1 (Items k f))) h2) in let i := length (ob_iters o1) in let now := uses kin (entered h1) in
  snd (step o1 (Items k f)) = Iterator i /\
  exists pairs e, nexts i h2 x2 = told pairs e (length (filter (fun c => match c with Next j => (j =? i)%nat | _ => false end) h2)) /\
    match k with
    | Plain => exists ps, items (view fname process now) f = Ok (ps, e) /\ pairs = map (fun p => (fst p, inl (snd p))) ps
    | Interpreted => exists ps, items (interpreted interpretation (view fname process now)) f = Ok (ps, e) /\ pairs = map (fun p => (fst p, inr (snd p))) ps
    | Linear => exists ps, interpreted_items interpretation (items (view fname process now) f) = (ps, e) /\ pairs = map (fun p => (fst p, inr (snd p))) ps
    end.
Proof.
  intros h1 k f h2 ks K E. cbv zeta. assert (G := C111_any h1 k f h2). destruct (run fresh h1) as [o1 x1] eqn:R1. cbn [fst snd]. destruct (step o1 (Items k f)) as [o2 x] eqn:S. cbn [fst snd] in *. cbv zeta in G. rewrite K in G.
  set (i := length (ob_iters o1)) in *. set (now := uses kin (entered h1)) in *. destruct (moments_same i (entered h1) h2 E) as (n & Hn). assert (Ln := moments_length i h2 (entered h1)). rewrite Hn, repeat_length in Ln. rewrite <- Ln. clear Ln. rewrite Hn in G.
  assert (Mp : map (fun l => read k (uses kin l)) (repeat (entered h1) n) = repeat (read k now) n). { subst now. generalize (entered h1) as l. intros l. clear. induction n as [|n IH]; cbn; [reflexivity|now rewrite IH]. }
  assert (G1 : x = Iterator i /\ nexts i h2 (snd (run o2 h2)) = ideal (filter f ks) (repeat (read k now) n)).
  { destruct k; [rewrite <- Mp; exact G|rewrite <- Mp; exact G|]. destruct G as (G1 & G2). split; [exact G1|]. rewrite G2. destruct n as [|n]; [reflexivity|]. cbn [repeat]. fold now. rewrite K. f_equal. exact Mp. }
  destruct G1 as (G1 & G2). split; [exact G1|]. rewrite G2. clear G G1 G2 Mp Hn.
  assert (Q := ideal_told (read k now) f ks n). destruct (yield_all (fun k0 => if f k0 then let* v := read k now k0 in Ok (Some (k0, v)) else Ok None) ks) as [ys e] eqn:Y. exists ys, e. split; [exact Q|]. clear Q.
  (* the pairs are those of the source under the embedding *)
  assert (Emb : forall (X : Type) (inj : X -> T + V) (g : str -> res X) (r : str -> res (T + V)), (forall k0, r k0 = let* v := g k0 in Ok (inj v)) ->
            yield_all (fun k0 => if f k0 then let* v := r k0 in Ok (Some (k0, v)) else Ok None) ks = (let '(ps, e0) := yield_all (fun k0 => if f k0 then let* v := g k0 in Ok (Some (k0, v)) else Ok None) ks in (map (fun p => (fst p, inj (snd p))) ps, e0))).
  { clear. intros X inj g r H. induction ks as [|k0 ks IH]; [reflexivity|]. cbn [yield_all]. destruct (f k0); [|exact IH]. rewrite H. destruct (g k0) as [v|x]; cbn [bind]; [|reflexivity]. rewrite IH. clear IH. now destruct (yield_all _ ks) as [ps e0]. }
  destruct k; unfold items.
  - rewrite K. cbn [bind]. rewrite (Emb _ _ _ (read Plain now) (fun k0 => eq_refl)) in Y. destruct (yield_all _ ks) as [ps e0]. exists ps. inversion Y; subst. auto.
  - cbn [src_keys interpreted]. rewrite K. cbn [bind]. rewrite (Emb _ _ _ (read Interpreted now) (fun k0 => eq_refl)) in Y. destruct (yield_all _ ks) as [ps e0]. exists ps. inversion Y; subst. auto.
  - rewrite K. cbn [bind interpreted_items]. rewrite (Emb _ _ _ (read Linear now) (fun k0 => eq_refl)) in Y. clear Emb.
    assert (Two : yield_all (fun k0 => if f k0 then let* v := src_item (interpreted interpretation (view fname process now)) k0 in Ok (Some (k0, v)) else Ok None) ks =
            (let '(ys0, e0) := yield_all (fun k0 => if f k0 then let* v := src_item (view fname process now) k0 in Ok (Some (k0, v)) else Ok None) ks in
             let '(zs, e') := yield_all (fun kt => let* v := interpretation (fst kt) (snd kt) in Ok (Some (fst kt, v))) ys0 in (zs, match e' with Some x0 => Some x0 | None => e0 end))).
    { generalize (view fname process now). clear. intros s. induction ks as [|k0 ks IH]; [reflexivity|]. cbn [yield_all]. destruct (f k0); [|exact IH]. cbn [src_item interpreted] in *. destruct (src_item s k0) as [t|x]; cbn [bind]; [|reflexivity].
      destruct (yield_all (fun k1 => if f k1 then let* v := src_item s k1 in Ok (Some (k1, v)) else Ok None) ks) as [ys0 e0]. cbn [yield_all fst snd]. destruct (interpretation k0 t) as [v|x]; cbn [bind]; [|reflexivity]. rewrite IH. clear IH. now destruct (yield_all _ ys0). }
    rewrite Two in Y. destruct (yield_all _ ks) as [ys0 e0]. destruct (yield_all _ ys0) as [zs e']. exists zs. inversion Y; subst. auto.
Qed.
(** C111: outside the block an iterator that has a key left raises AssertionError, once, and is then finished; one that has not ends as usual. *)
Theorem C111_left : forall h1 k f h2 h3 ks, src_keys (view fname process (uses kin (entered h1))) = Ok (Some ks) -> entered h2 = [] -> entered h3 = [] ->
  let o1 := fst (run fresh h1) in let i := length (ob_iters o1) in let asked h := length (filter (fun c => match c with Next j => (j =? i)%nat | _ => false end) h) in
  let o2 := fst (run (fst (step o1 (Items k f))) (h2 ++ [Exit])) in
  (k = Linear -> (0 < asked h2)%nat) -> (forall key, In key (filter f ks) -> exists v, read k (uses kin (entered h1)) key = Ok v) ->
  nexts i h3 (snd (run o2 h3)) = if (asked h2 <? length (filter f ks))%nat then told [] (Some AssertionError) (asked h3) else repeat Stopped (asked h3).
Proof.
  intros h1 k f h2 h3 ks K E2 E3. cbv zeta. intros Lin Rd. assert (G := C111_any h1 k f (h2 ++ [Exit] ++ h3)). destruct (run fresh h1) as [o1 x1] eqn:R1. cbn [fst snd] in *. destruct (step o1 (Items k f)) as [o2 x] eqn:S. cbn [fst snd] in *. cbv zeta in G. rewrite K in G.
  set (i := length (ob_iters o1)) in *. set (now := uses kin (entered h1)) in *.
  assert (Mo : forall h h' l, moments i l (h ++ h') = moments i l h ++ moments i (l ++ entered h) h').
  { clear. induction h as [|c h IH]; intros h' l; cbn; [now rewrite app_nil_r|]. destruct c; cbn; rewrite ?IH, <- ?app_assoc; try reflexivity. destruct (i0 =? i)%nat; reflexivity. }
  rewrite !Mo in G. rewrite E2, app_nil_r in G. cbn [moments app entered] in G. destruct (moments_same i (entered h1) h2 E2) as (n & Hn). destruct (moments_same i (entered h1 ++ [ZipKeys.Exit]) h3 E3) as (m & Hm).
  assert (Ln := moments_length i h2 (entered h1)). rewrite Hn, repeat_length in Ln. assert (Lm := moments_length i h3 (entered h1 ++ [ZipKeys.Exit])). rewrite Hm, repeat_length in Lm. rewrite <- Ln in *. rewrite <- Lm. clear Ln Lm. rewrite Hn, Hm in G.
  set (after := uses kin (entered h1 ++ [ZipKeys.Exit])) in *.
  assert (Mp : forall l j, map (fun l => read k (uses kin l)) (repeat l j) = repeat (read k (uses kin l)) j). { clear. intros l j. induction j as [|j IH]; cbn; [reflexivity|now rewrite IH]. }
  rewrite map_app, !Mp in G. fold now after in G.
  assert (G1 : nexts i (h2 ++ [Exit] ++ h3) (snd (run o2 (h2 ++ [Exit] ++ h3))) = ideal (filter f ks) (repeat (read k now) n ++ repeat (read k after) m)).
  { destruct k; [exact (proj2 G)|exact (proj2 G)|]. destruct G as (_ & G). refine (eq_trans G _). clear G. destruct n as [|n]; [specialize (Lin eq_refl); lia|]. cbn [repeat app]. fold now. rewrite K. reflexivity. }
  clear G. change (h2 ++ [Exit] ++ h3) with (h2 ++ ([Exit] ++ h3)) in G1. rewrite app_assoc in G1. rewrite run_app in G1. destruct (run o2 (h2 ++ [Exit])) as [o3 y3] eqn:R3. cbn [fst]. destruct (run o3 h3) as [o4 y4] eqn:R4. cbn [snd] in *.
  assert (Nx : forall h h' (a b : list (outcome T V)), length a = length h -> nexts i (h ++ h') (a ++ b) = nexts i h a ++ nexts i h' b).
  { clear. induction h as [|c h IH]; intros h' [|x a] b L; try discriminate; [reflexivity|]. cbn in L. destruct c; cbn; rewrite ?IH by lia; try reflexivity. destruct (i0 =? i)%nat; reflexivity. }
  assert (Rl : forall h o, length (snd (run o h)) = length h). { clear. induction h as [|c h IH]; intros o; cbn; [reflexivity|]. destruct (step o c) as [o1 x]. specialize (IH o1). destruct (run o1 h). cbn in *. now rewrite IH. }
  assert (L3 : length y3 = length (h2 ++ [Exit])) by (rewrite <- (Rl (h2 ++ [Exit]) o2), R3; reflexivity). rewrite (Nx _ _ _ _ L3) in G1.
  assert (N3 : length (nexts i (h2 ++ [Exit]) y3) = n).
  { assert (Nl : forall h (a : list (outcome T V)) l, length a = length h -> length (nexts i h a) = length (moments i l h)). { clear. induction h as [|c h IH]; intros [|x a] l L; try discriminate; [reflexivity|]. cbn in L. destruct c; cbn; auto. destruct (i0 =? i)%nat; cbn; auto. }
    rewrite (Nl _ _ (entered h1) L3), Mo, Hn. cbn. rewrite app_nil_r. apply repeat_length. }
  (* what the ideal iterator does after n steps that succeed *)
  assert (After : forall key, read k after key = Raise AssertionError). { intros key. subst after. rewrite uses_app. cbn [use_source]. unfold exit_source. fold now. unfold view in K. destruct (o_zip now) as [a|]; [|discriminate]. cbn [fst]. destruct k; reflexivity. }
  assert (Id : forall n l, (forall key, In key l -> exists v, read k now key = Ok v) -> exists pre, length pre = n /\ ideal l (repeat (read k now) n ++ repeat (read k after) m) = pre ++ (if (n <? length l)%nat then told [] (Some AssertionError) m else repeat Stopped m)).
  { clear - After. intros n. induction n as [|n IH]; intros l Rd.
    - exists []. split; [reflexivity|]. cbn [repeat app]. destruct l as [|key l]; [cbn; apply ideal_end|]. cbn [length Nat.ltb Nat.leb]. destruct m as [|m]; [reflexivity|]. cbn [repeat ideal told]. rewrite After. f_equal. rewrite ideal_end. symmetry. apply told_end.
    - destruct l as [|key l].
      + destruct (IH [] (fun key (I : In key []) => match I with end)) as (pre & Lp & P). exists (Stopped :: pre). split; [cbn; lia|]. cbn [repeat app ideal]. cbn [length] in *. rewrite P. reflexivity.
      + destruct (Rd key (or_introl eq_refl)) as (v & Hv). destruct (IH l (fun key' I => Rd key' (or_intror I))) as (pre & Lp & P). exists (Yielded key v :: pre). split; [cbn; lia|]. cbn [repeat app ideal length]. rewrite Hv, P. reflexivity. }
  destruct (Id n (filter f ks) Rd) as (pre & Lp & P). rewrite P in G1. clear - G1 N3 Lp.
  assert (Sp : forall (a b c d : list (outcome T V)), length a = length c -> a ++ b = c ++ d -> b = d). { clear. induction a as [|x a IH]; intros b [|y c] d L E; try discriminate; [exact E|]. cbn in *. inversion E. eapply IH; [|eassumption]. lia. }
  exact (Sp _ _ _ _ (eq_trans N3 (eq_sym Lp)) G1).
Qed.
End Proofs.
(** Refuted: an iterator goes through the store it was made of.  If the source is left and entered again, the file having been rewritten, an iterator made before gives the old keys with the new values; a key the new file lacks is a KeyError. *)
Theorem C111_rewritten_refuted : forall (T V : Type) kr fname (process : bytes -> res T) (interpretation : str -> T -> res V) a a' ks ks', kr a = Ok (Some ks) -> kr a' = Ok ks' -> forall k f h2 h3, entered h2 = [] -> entered h3 = [] -> k <> Linear ->
  exists x2, snd (run (Some kr) fname process interpretation fresh ([Enter (Zip a); Items k f] ++ h2 ++ [Exit; Enter (Zip a')] ++ h3)) = [Done; Iterator 0] ++ x2 /\
  nexts 0 (h2 ++ [Exit; Enter (Zip a')] ++ h3) x2 =
  ideal (filter f ks) (map (read fname process interpretation k) (repeat {| o_zip := Some a; o_keys := Some ks |} (length (filter (fun c => match c with Next 0 => true | _ => false end) h2)) ++ repeat {| o_zip := Some a'; o_keys := ks' |} (length (filter (fun c => match c with Next 0 => true | _ => false end) h3)))).
Proof.
  intros T V kr fname process interpretation a a' ks ks' Ka Ka' k f h2 h3 E2 E3 NL. assert (G := C111_any (Some kr) fname process interpretation [Enter (Zip a)] k f (h2 ++ [Exit; Enter (Zip a')] ++ h3)). rewrite run_app. cbn [ZipIter.run ZipIter.step ob_source ob_iters fresh enter_source use_source] in *. rewrite Ka in *. cbn [fst snd] in *.
  assert (St : forall o1, all_keys fname process (ob_source o1) = Ok ks -> ob_iters o1 = [] -> ZipIter.step (Some kr) fname process interpretation o1 (Items k f) = (Object (ob_source o1) [Iter k f (Some ks)], Iterator 0)). { intros o1 A B. cbn. rewrite A, B. destruct k; [reflexivity|reflexivity|congruence]. }
  cbv zeta in G. cbn [ob_iters length entered] in G. set (o1 := Object {| o_zip := Some a; o_keys := Some ks |} []) in *. assert (St1 := St o1 eq_refl eq_refl). cbn [ZipIter.step] in St1. cbn [ob_source ob_iters o1] in St1. subst o1. cbn [ob_source ob_iters] in *. rewrite St1 in *. clear St St1.
  destruct (ZipIter.run (Some kr) fname process interpretation _ (h2 ++ [Exit; Enter (Zip a')] ++ h3)) as [o3 x3] eqn:R3. cbn [snd] in *. exists x3. split; [reflexivity|].
  assert (U : uses (Some kr) [ZipKeys.Enter (Zip a)] = {| o_zip := Some a; o_keys := Some ks |}) by (cbn; now rewrite Ka).
  assert (U' : uses (Some kr) ([ZipKeys.Enter (Zip a)] ++ [ZipKeys.Exit] ++ [ZipKeys.Enter (Zip a')]) = {| o_zip := Some a'; o_keys := ks' |}) by (cbn; rewrite Ka; cbn; now rewrite Ka').
  assert (Mo : forall h h' l, moments 0 l (h ++ h') = moments 0 l h ++ moments 0 (l ++ entered h) h').
  { clear. induction h as [|c h IH]; intros h' l; cbn; [now rewrite app_nil_r|]. destruct c; cbn; rewrite ?IH, <- ?app_assoc; try reflexivity. destruct (i =? 0)%nat; reflexivity. }
  assert (G1 : nexts 0 (h2 ++ [Exit; Enter (Zip a')] ++ h3) x3 = ideal (filter f ks) (map (fun l => read fname process interpretation k (uses (Some kr) l)) (moments 0 [ZipKeys.Enter (Zip a)] (h2 ++ [Exit; Enter (Zip a')] ++ h3)))).
  { rewrite U in G. cbn [view src_keys zip_source o_zip o_keys] in G. change x3 with (snd (o3, x3)). rewrite <- R3. destruct k; [exact (proj2 G)|exact (proj2 G)|congruence]. }
  rewrite G1. f_equal. rewrite !Mo, E2. cbn [app entered moments]. rewrite map_app, map_app. destruct (moments_same 0 [ZipKeys.Enter (Zip a)] h2 E2) as (n & Hn). destruct (moments_same 0 ([ZipKeys.Enter (Zip a)] ++ [ZipKeys.Exit] ++ [ZipKeys.Enter (Zip a')]) h3 E3) as (m & Hm).
  assert (Fl : forall h, filter (fun c => match c with Next j => (j =? 0)%nat | _ => false end) h = filter (fun c => match c with Next 0 => true | _ => false end) h) by (intros h; apply filter_ext; intros [| | |[|j]|]; reflexivity).
  assert (Ln := moments_length 0 h2 [ZipKeys.Enter (Zip a)]). rewrite Hn, repeat_length, Fl in Ln. assert (Lm := moments_length 0 h3 ([ZipKeys.Enter (Zip a)] ++ [ZipKeys.Exit] ++ [ZipKeys.Enter (Zip a')])). rewrite Hm, repeat_length, Fl in Lm. rewrite <- Ln, <- Lm.
  cbn [app] in Hm |- *. rewrite Hn, Hm. clear - U U'. cbn [app] in U'.
  f_equal; [induction n as [|n IH]; cbn [repeat map]; [reflexivity|now rewrite IH, U]|induction m as [|m IH]; cbn [repeat map]; [reflexivity|now rewrite IH, U']].
Qed.

(** ** A case: two iterators, one of the interpreted source, over a store of three keys; the file is rewritten without the last key *)
Local Notation a111 := [(!!"x", !!"1"); (!!"y", !!"2"); (!!"z", !!"3"); (keys_entry, !!"x" ++ [LF] ++ !!"y" ++ [LF] ++ !!"z")].
Local Notation b111 := [(!!"y", !!"new"); (!!"x", !!"old"); (keys_entry, !!"y" ++ [LF] ++ !!"x")].
Local Notation up111 := (fun k t => if str_eqb t !!"3" then Raise ValueError else Ok (k ++ t)).
Local Notation flt111 := (fun k => negb (str_eqb k !!"x")).
Example C111_witness : run (Some read_keys) (fun k => k) decode up111 fresh
    [Items Plain flt111; Items Linear flt111; Next 0; Enter (Zip a111); Items Plain (fun _ => true); Items Interpreted flt111; Next 1; Item Plain !!"z"; Next 2; Next 1; Next 2; Next 2; Exit; Items Plain flt111; Enter (Zip b111); Next 1; Next 1; Next 1; Next 0; Item Plain !!"z"] =
  (Object {| o_zip := Some b111; o_keys := Some [!!"y"; !!"x"] |} [Iter Linear flt111 (Some []); Iter Plain (fun _ => true) (Some []); Iter Interpreted flt111 (Some [])],
   [Raised AssertionError; Iterator 0; Raised AssertionError; Done; Iterator 1; Iterator 2; Yielded !!"x" (inl !!"1"); Value (inl !!"3"); Yielded !!"y" (inr !!"y2"); Yielded !!"y" (inl !!"2"); Raised ValueError; Stopped; Done; Raised AssertionError; Done; Raised KeyError; Stopped; Stopped; Stopped; Raised KeyError]).
Proof. vm_compute. reflexivity. Qed.
(** the hypotheses of C111_inside and C111_left *)
Example C111_left_witness : let kin := Some read_keys in src_keys (view (fun k => k) decode (uses kin (entered [Enter (Zip a111)]))) = Ok (Some [!!"x"; !!"y"; !!"z"]) /\
  (forall key, In key (filter (fun _ => true) [!!"x"; !!"y"; !!"z"]) -> exists v, read (fun k => k) decode up111 Plain (uses kin (entered [Enter (Zip a111)])) key = Ok v) /\
  snd (run kin (fun k => k) decode up111 fresh [Enter (Zip a111); Items Plain (fun _ => true); Next 0; Exit; Next 0; Next 0]) = [Done; Iterator 0; Yielded !!"x" (inl !!"1"); Done; Raised AssertionError; Stopped].
Proof. split; [vm_compute; reflexivity|]. split; [|vm_compute; reflexivity]. intros key [<-|[<-|[<-|[]]]]; eexists; vm_compute; reflexivity. Qed.
(** the hypotheses of C111_rewritten_refuted, and what it says: the key y with the value of the new file *)
Example C111_rewritten_witness : read_keys a111 = Ok (Some [!!"x"; !!"y"; !!"z"]) /\ read_keys b111 = Ok (Some [!!"y"; !!"x"]) /\
  snd (run (Some read_keys) (fun k => k) decode up111 fresh [Enter (Zip a111); Items Plain flt111; Exit; Enter (Zip b111); Next 0; Next 0; Next 0]) = [Done; Iterator 0; Done; Done; Yielded !!"y" (inl !!"new"); Raised KeyError; Stopped].
Proof. repeat split; vm_compute; reflexivity. Qed.
Print Assumptions C111_any. Print Assumptions C111_inside. Print Assumptions C111_left. Print Assumptions C111_rewritten_refuted.
