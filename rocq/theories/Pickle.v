(** * Pickling ranges and range sets (range.py:121-225, 586-595, 773-808, 1081-1084)

    [_BelowAll] and [_AboveAll] are compared by identity (range.py:123-126, 186, 219,
    433-437) but pickle rebuilds them as new objects (attrs slotted classes without
    [__reduce__]).  Here each carries the identity of its instance; 0 is the module constant
    [_BELOW_ALL]/[_ABOVE_ALL] (range.py:228-231).  One [pickle.loads] call rebuilds each
    constant once (pickle's memo), with an identity different from 0. *)
From Coq Require Import Sorted.
From Verif Require Import Prelude Order Range RangeFacts RangeProofs SortedDict RangeSet
  RangeSetOps RangeSetProofs RangeSetProofs2.

Section Pickle.
Context {T : Type} {O : TotalOrder T}.

(** range.py:82-304 for objects that may stem from another process *)
Inductive pcut :=
| PBelowAll (id : nat) | PBelowV (x : T) | PAboveV (x : T) | PAboveAll (id : nat).
(** range.py:312-387 for such cuts *)
Record prange := MkP { plower : pcut; pupper : pcut }.

(** range.py:121-142, 184-188, 217-221: a value cut compared with an "all" cut that is not
    the module constant asks for its endpoint, which raises ValueError (166-167, 199-200). *)
Definition pcompare (self other : pcut) : res Z :=
  match self with
  | PBelowAll i => match other with PBelowAll j => Ok (if (i =? j)%nat then 0 else -1)%Z | _ => Ok (-1)%Z end
  | PAboveAll i => match other with PAboveAll j => Ok (if (i =? j)%nat then 0 else 1)%Z | _ => Ok 1%Z end
  | PBelowV a =>
      match other with
      | PBelowAll 0 => Ok 1%Z
      | PAboveAll 0 => Ok (-1)%Z
      | PBelowAll _ | PAboveAll _ => Raise ValueError
      | PBelowV b => Ok (if ltb a b then -1 else if ltb b a then 1 else 0)%Z
      | PAboveV b => Ok (if ltb a b then -1 else if ltb b a then 1 else -1)%Z
      end
  | PAboveV a =>
      match other with
      | PBelowAll 0 => Ok 1%Z
      | PAboveAll 0 => Ok (-1)%Z
      | PBelowAll _ | PAboveAll _ => Raise ValueError
      | PAboveV b => Ok (if ltb a b then -1 else if ltb b a then 1 else 0)%Z
      | PBelowV b => Ok (if ltb a b then -1 else if ltb b a then 1 else 1)%Z
      end
  end.
(** range.py:158-159, 255-258, 292-295 *)
Definition pcut_eq (a b : pcut) : bool :=
  match a with
  | PBelowAll _ | PAboveAll _ => match pcompare a b with Ok 0%Z => true | _ => false end
  | PBelowV x => match b with PBelowV y => eqb x y | _ => false end
  | PAboveV x => match b with PAboveV y => eqb x y | _ => false end
  end.
(** range.py:146-147 *)
Definition pcut_lt (a b : pcut) : res bool := let* c := pcompare a b in Ok (c <? 0)%Z.
(** range.py:586-592 *)
Definition prange_eq (a b : prange) : bool :=
  pcut_eq (plower a) (plower b) && pcut_eq (pupper a) (pupper b).
(** range.py:433-437 *)
Definition p_has_lower_bound (r : prange) : bool := match plower r with PBelowAll 0 => false | _ => true end.
(** range.py:436-437 *)
Definition p_has_upper_bound (r : prange) : bool := match pupper r with PAboveAll 0 => false | _ => true end.
(** range.py:169-170, 202-203, 243-244, 279-280, 468-472 *)
Definition p_is_less_than (c : pcut) (x : T) : bool :=
  match c with
  | PBelowAll _ => true
  | PBelowV a => ltb a x || eqb a x
  | PAboveV a => ltb a x
  | PAboveAll _ => false
  end.
(** range.py:468-472 *)
Definition p_contains (r : prange) (x : T) : bool :=
  p_is_less_than (plower r) x && negb (p_is_less_than (pupper r) x).

(** A live object of the current process, built by the factories. *)
Definition in_process_cut (c : cut T) : pcut :=
  match c with BelowAll => PBelowAll 0 | BelowV x => PBelowV x | AboveV x => PAboveV x | AboveAll => PAboveAll 0 end.
(** a range built in this process *)
Definition in_process (r : range T) : prange := MkP (in_process_cut (lower r)) (in_process_cut (upper r)).
(** pickle.loads(pickle.dumps(r)): new instances of the "all" cuts with identity [fresh].
    Assumes the endpoint type itself round-trips. *)
Definition reload_cut (fresh : nat) (c : cut T) : pcut :=
  match c with BelowAll => PBelowAll fresh | BelowV x => PBelowV x | AboveV x => PAboveV x | AboveAll => PAboveAll fresh end.
(** pickle.loads(pickle.dumps(r)): the value cuts are equal, an "all" cut is a new object *)
Definition reload (fresh : nat) (r : range T) : prange :=
  MkP (reload_cut fresh (lower r)) (reload_cut fresh (upper r)).

(** Sets: [__getstate__] (800-803) lists the ranges in increasing order; [__setstate__]
    (1081-1084) builds a SortedDict from (lower bound, range) pairs, whose constructor sorts
    the keys.  Python's sort on an ascending list compares each element with its
    predecessor ([keys[i+1] < keys[i]]) and leaves the list as it is.  (With pickle
    protocol >= 2, the default, [__setstate__] is also called on the empty state.) *)
Fixpoint ascending_compares (ks : list pcut) : res unit :=
  match ks with
  | a :: ((b :: _) as r) => let* _ := pcut_lt b a in ascending_compares r
  | _ => Ok tt
  end.
(** range.py:800-808, 1081-1084 *)
Definition reload_set (fresh : nat) (d : rset T) : res (list prange) :=
  let rs := map (reload fresh) (getstate d) in
  let* _ := ascending_compares (map plower rs) in
  Ok rs.
(** range.py:773-777 on the listed ranges (no repetitions occur) *)
Definition pset_eq (a b : list prange) : bool :=
  (length a =? length b)%nat && forallb (fun r => existsb (prange_eq r) b) a.

(** ** Proofs *)
Lemma pcut_eq_iff a b : pcut_eq a b = true <-> a = b.
Proof.
  destruct a, b; simpl; try (split; congruence).
  - destruct (Nat.eqb_spec id id0); split; try congruence; intros H; inversion H; congruence.
  - rewrite eqb_eq. split; congruence.
  - rewrite eqb_eq. split; congruence.
  - destruct (Nat.eqb_spec id id0); split; try congruence; intros H; inversion H; congruence.
Qed.
Lemma prange_eq_iff a b : prange_eq a b = true <-> a = b.
Proof.
  unfold prange_eq. rewrite andb_true_iff, !pcut_eq_iff. destruct a, b; simpl.
  split; [intros [-> ->]; reflexivity|intros H; inversion H; auto].
Qed.
Lemma reload_bounded f r : has_lower_bound r = true -> has_upper_bound r = true -> valid r ->
  reload f r = in_process r.
Proof.
  unfold has_lower_bound, has_upper_bound. intros L U V. apply valid_spec in V.
  destruct r as [[] []]; simpl in *; try discriminate; try reflexivity; destruct V as (_ & V1 & V2);
  try discriminate V1; try discriminate V2.
Qed.
Lemma reload_eq f r : f <> 0 -> valid r ->
  (prange_eq (in_process r) (reload f r) = true <-> has_lower_bound r = true /\ has_upper_bound r = true).
Proof.
  intros F V. split.
  - intros E. apply prange_eq_iff in E. unfold in_process, reload in E. injection E as E1 E2.
    unfold has_lower_bound, has_upper_bound.
    destruct (lower r), (upper r); simpl in *; try congruence; auto.
  - intros [L U]. rewrite reload_bounded by assumption. now apply prange_eq_iff.
Qed.
Lemma reload_contains f r x : p_contains (reload f r) x = contains r x.
Proof. destruct r as [[] []]; reflexivity. Qed.

Lemma compares_no_all f ks : (forall c, In c ks -> c <> BelowAll /\ c <> AboveAll) ->
  ascending_compares (map (reload_cut f) ks) = Ok tt.
Proof.
  induction ks as [|a [|b ks] IH]; intros H; [reflexivity|reflexivity|].
  simpl map. cbn [ascending_compares].
  assert (E : exists z, pcut_lt (reload_cut f b) (reload_cut f a) = Ok z).
  { destruct (H a (or_introl eq_refl)), (H b (or_intror (or_introl eq_refl))).
    destruct a, b; try congruence; simpl; unfold pcut_lt; simpl; eauto. }
  destruct E as (z & ->). cbn [bind]. apply IH. intros c Hc. apply H. now right.
Qed.
End Pickle.
Arguments pcut T : clear implicits.
Arguments prange T : clear implicits.

Section PickleProofs.
Context {T : Type} {O : TotalOrder T}.
Notation rng := (range T).
Lemma wf_keys (r : rng) rs q : WF (r :: rs) -> In q rs -> lower q <> BelowAll /\ lower q <> AboveAll.
Proof.
  intros W Hq. destruct (wf_tail _ _ W) as (Gr & W' & B). specialize (B q Hq).
  destruct (wf_good _ _ W' Hq) as [Vq Gq]. destruct Gr as [Vr Gr].
  apply valid_spec in Vq, Vr. unfold before in B. split; intros E; rewrite E in *; cord.
Qed.
Lemma getstate_kv (rs : list rng) : getstate (map kv rs) = rs.
Proof. unfold getstate, rs_is_empty. rewrite map_length. destruct rs; [reflexivity|]. simpl. f_equal. unfold as_ranges, sd_values. rewrite map_map. apply map_id. Qed.
Lemma plower_reload f (rs : list rng) : map plower (map (reload f) rs) = map (reload_cut f) (map lower rs).
Proof. rewrite !map_map. reflexivity. Qed.

Lemma reload_set_spec f (rs : list rng) : f <> 0 -> WF rs ->
  reload_set f (map kv rs) =
  match rs with
  | r :: _ :: _ => if has_lower_bound r then Ok (map (reload f) rs) else Raise ValueError
  | _ => Ok (map (reload f) rs)
  end.
Proof.
  intros F W. unfold reload_set. rewrite getstate_kv, plower_reload.
  destruct rs as [|r [|q rs]]; [reflexivity|reflexivity|].
  assert (K : forall c, In c (map lower (q :: rs)) -> c <> BelowAll /\ c <> AboveAll).
  { intros c Hc. apply in_map_iff in Hc. destruct Hc as (m & <- & Hm). eapply wf_keys; eauto. }
  destruct (has_lower_bound r) eqn:L.
  - rewrite compares_no_all; [reflexivity|]. intros c [<-|Hc]; [|auto].
    unfold has_lower_bound in L. destruct (wf_good _ _ W (or_introl eq_refl)) as [V _].
    apply valid_spec in V. split; intros E; rewrite E in *; [discriminate|cord].
  - cbn [map ascending_compares]. unfold has_lower_bound in L.
    destruct (lower r) eqn:E; try discriminate. destruct (K (lower q) (or_introl eq_refl)) as [K1 K2].
    destruct (lower q); try congruence; unfold pcut_lt; cbn [reload_cut pcompare]; destruct f; try congruence; reflexivity.
Qed.
Lemma pset_eq_reload f (rs : list rng) : f <> 0 -> WF rs ->
  (pset_eq (map in_process rs) (map (reload f) rs) = true <->
   forall m, In m rs -> has_lower_bound m = true /\ has_upper_bound m = true).
Proof.
  intros F W. assert (V : forall m, In m rs -> valid m) by (intros m Hm; apply (wf_good _ _ W Hm)).
  unfold pset_eq. rewrite !map_length, Nat.eqb_refl. simpl. rewrite forallb_forall. split.
  - intros H m Hm. specialize (H _ (in_map in_process _ _ Hm)).
    apply existsb_exists in H. destruct H as (p & Hp & E). apply prange_eq_iff in E. subst p.
    apply in_map_iff in Hp. destruct Hp as (m' & E & Hm').
    unfold reload, in_process in E. injection E as E1 E2.
    unfold has_lower_bound, has_upper_bound.
    split; [destruct (lower m)|destruct (upper m)]; try reflexivity;
    [destruct (lower m')|destruct (upper m')]; simpl in *; congruence.
  - intros H p Hp. apply in_map_iff in Hp. destruct Hp as (m & <- & Hm).
    apply existsb_exists. exists (reload f m). split; [now apply in_map|].
    apply reload_eq; auto.
Qed.
End PickleProofs.
