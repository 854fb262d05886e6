(** * Proofs about Range, second part *)
From Verif Require Import Prelude Order Range RangeFacts.
From Verif Require Export RangeProofs1.

Section Proofs.
Context {T : Type} {O : TotalOrder T}.
Implicit Types (r a b c : range T) (x y : T).

Lemma intersection_all a : valid a -> intersection a (MkRange BelowAll AboveAll) = Ok a.
Proof.
  intros Va. assert (Vl : valid (MkRange (T:=T) BelowAll AboveAll)) by (apply valid_spec; auto).
  rewrite intersection_eq by assumption.
  unfold cmax, cmin. cut_norm; cbn [lower upper]. rewrite !below_all_least, !above_all_greatest.
  now destruct a.
Qed.
Lemma intersects_connected a b : valid a -> valid b -> intersects a b = is_connected a b.
Proof.
  intros Va Vb. apply valid_spec in Va, Vb. unfold intersects. destruct a as [la ua], b as [lb ub].
  cut_norm; cbn [lower upper] in *.
  destruct (cltb la lb) eqn:E1, (cltb lb la) eqn:E2, (cltb ua ub) eqn:E3, (cltb ub ua) eqn:E4;
    simpl in *; try (exfalso; cord); cord.
Qed.

Lemma span_eq a b : valid a -> valid b ->
  span a b = Ok (MkRange (cmin (lower a) (lower b)) (cmax (upper a) (upper b))).
Proof.
  intros Va Vb. apply valid_spec in Va, Vb. unfold span, cmax, cmin.
  rewrite mk_range_spec. destruct a as [la ua], b as [lb ub]; cbn [lower upper] in *.
  cut_norm.
  destruct (cltb la lb) eqn:E1, (cltb lb la) eqn:E2, (cltb ua ub) eqn:E3, (cltb ub ua) eqn:E4;
    simpl in *; try (exfalso; cord);
    repeat match goal with
    | |- context [cltb ?x ?y] => let E := fresh in destruct (cltb x y) eqn:E; simpl in *
    end; try reflexivity; try (exfalso; cord); try (f_equal; f_equal; cord).
Qed.
Lemma span_valid a b c : valid a -> valid b -> span a b = Ok c -> valid c.
Proof.
  intros Va Vb. rewrite span_eq by assumption.
  intros H; inversion H; subst; clear H. apply valid_spec in Va, Vb. apply valid_spec.
  unfold cmax, cmin; cbn [lower upper].
  destruct (cltb (lower b) (lower a)) eqn:E1, (cltb (upper a) (upper b)) eqn:E2; cord.
Qed.
Lemma span_join a b : valid a -> valid b -> exists c, span a b = Ok c /\ valid c /\
  encloses c a = true /\ encloses c b = true /\
  (forall d, encloses d a = true -> encloses d b = true -> encloses d c = true).
Proof.
  intros Va Vb. rewrite span_eq by assumption. eexists; split; [reflexivity|].
  split; [eapply span_valid; [exact Va|exact Vb|now rewrite span_eq]|].
  unfold cmax, cmin.
  destruct (cltb (lower b) (lower a)) eqn:E1, (cltb (upper a) (upper b)) eqn:E2;
    repeat split; intros; cut_norm; cbn [lower upper] in *; cord.
Qed.
Lemma span_comm a b : valid a -> valid b -> span a b = span b a.
Proof.
  intros Va Vb. rewrite !span_eq by assumption. f_equal. unfold cmax, cmin. f_equal;
  destruct (cltb (lower a) (lower b)) eqn:E1, (cltb (upper b) (upper a)) eqn:E2,
    (cltb (lower b) (lower a)) eqn:E3, (cltb (upper a) (upper b)) eqn:E4; cord.
Qed.
Lemma span_idem a : valid a -> span a a = Ok a.
Proof.
  intros Va. rewrite span_eq by assumption.
  unfold cmax, cmin. rewrite !cltb_irrefl. now destruct a.
Qed.
Lemma span_assoc a b c : valid a -> valid b -> valid c ->
  (let* ab := span a b in span ab c) = (let* bc := span b c in span a bc).
Proof.
  intros Va Vb Vc. 
  pose proof (span_valid a b _ Va Vb (span_eq a b Va Vb)) as V1.
  pose proof (span_valid b c _ Vb Vc (span_eq b c Vb Vc)) as V2.
  rewrite (span_eq a b), (span_eq b c) by assumption. simpl. rewrite !span_eq by assumption.
  clear V1 V2. f_equal. unfold cmax, cmin; cbn [lower upper]. f_equal.
  - destruct (cltb (lower b) (lower a)) eqn:?, (cltb (lower c) (lower b)) eqn:?;
      repeat match goal with |- context [if cltb ?x ?y then _ else _] => destruct (cltb x y) eqn:? end; cord.
  - destruct (cltb (upper a) (upper b)) eqn:?, (cltb (upper b) (upper c)) eqn:?;
      repeat match goal with |- context [if cltb ?x ?y then _ else _] => destruct (cltb x y) eqn:? end; cord.
Qed.

(** union of connected ranges *)
Lemma span_union a b c x : valid a -> valid b -> is_connected a b = true -> span a b = Ok c ->
  contains c x = contains a x || contains b x.
Proof.
  intros Va Vb C. rewrite span_eq by assumption.
  intros H; inversion H; subst; clear H. apply valid_spec in Va, Vb. unfold cmax, cmin.
  destruct (cltb (lower b) (lower a)) eqn:E1, (cltb (upper a) (upper b)) eqn:E2;
    cut_norm; cbn [lower upper] in *; cord.
Qed.

(** *** create_spanning *)
Lemma min_from_spec (m : cut T) l :
  (min_from m l = m \/ In (min_from m l) l) /\
  cltb m (min_from m l) = false /\ forall (c : cut T), In c l -> cltb c (min_from m l) = false.
Proof.
  revert m. induction l as [|d l IH]; intros m; simpl.
  - repeat split; auto. apply cltb_irrefl. contradiction.
  - destruct (IH (if cut_lt d m then d else m)) as (H1 & H2 & H3).
    change (cut_lt d m) with (cltb d m) in *.
    destruct (cltb d m) eqn:E.
    + split; [intuition|]. split; [cord|]. intros c [->|Hc]; auto.
    + split; [intuition|]. split; [cord|]. intros c [->|Hc]; [cord|auto].
Qed.
Lemma max_from_spec (m : cut T) l :
  (max_from m l = m \/ In (max_from m l) l) /\
  cltb (max_from m l) m = false /\ forall (c : cut T), In c l -> cltb (max_from m l) c = false.
Proof.
  revert m. induction l as [|d l IH]; intros m; simpl.
  - repeat split; auto. apply cltb_irrefl. contradiction.
  - destruct (IH (if cut_gt d m then d else m)) as (H1 & H2 & H3).
    rewrite cut_gt_spec in *.
    destruct (cltb m d) eqn:E.
    + split; [intuition|]. split; [cord|]. intros c [->|Hc]; auto.
    + split; [intuition|]. split; [cord|]. intros c [->|Hc]; [cord|auto].
Qed.
Lemma create_spanning_spec rs : rs <> [] -> Forall valid rs ->
  exists c, create_spanning rs = Ok c /\ valid c /\
    (forall r, In r rs -> encloses c r = true) /\
    (forall d, (forall r, In r rs -> encloses d r = true) -> encloses d c = true).
Proof.
  intros Hne HV. destruct rs as [|r0 rs]; [contradiction|]. unfold create_spanning.
  destruct (min_from_spec (lower r0) (map lower rs)) as (A1 & A2 & A3).
  destruct (max_from_spec (upper r0) (map upper rs)) as (B1 & B2 & B3).
  set (m := min_from _ _) in *. set (M := max_from _ _) in *.
  inversion HV as [|? ? V0 VR]; subst. apply valid_spec in V0.
  assert (Vc : valid (MkRange m M)).
  { apply valid_spec; cbn [lower upper]. cord. }
  exists (MkRange m M). split; [exact Vc|]. split; [exact Vc|]. split.
  - intros r [<-|Hr]; cut_norm; cbn [lower upper]; [cord|].
    pose proof (A3 (lower r) (in_map lower _ _ Hr)). pose proof (B3 (upper r) (in_map upper _ _ Hr)). cord.
  - intros d Hd.
    assert (D1 : cltb m (lower d) = false).
    { destruct A1 as [->|A1]; [specialize (Hd r0 (or_introl eq_refl)); cord|].
      apply in_map_iff in A1. destruct A1 as (r & <- & Hr). specialize (Hd r (or_intror Hr)). cord. }
    assert (D2 : cltb (upper d) M = false).
    { destruct B1 as [->|B1]; [specialize (Hd r0 (or_introl eq_refl)); cord|].
      apply in_map_iff in B1. destruct B1 as (r & <- & Hr). specialize (Hd r (or_intror Hr)). cord. }
    cut_norm; cbn [lower upper]; cord.
Qed.

(** *** equality and hash *)
Lemma range_eq_iff a b : range_eq a b = true <-> a = b.
Proof.
  unfold range_eq. rewrite andb_true_iff, !cut_eq_spec. destruct a, b; simpl.
  split; [intros [-> ->]; reflexivity | intros H; inversion H; auto].
Qed.

End Proofs.
