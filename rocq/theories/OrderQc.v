(** A dense, unbounded total order (canonical rationals), used only to show that the
    density hypotheses of some theorems are satisfiable. *)
From Verif Require Import Prelude Order.
From Coq Require Import QArith Qcanon.

(** rationals, as an example of a dense order *)
Definition Qc_ltb (x y : Qc) : bool := negb (Qle_bool y x).
Lemma Qc_ltb_lt x y : Qc_ltb x y = true <-> (x < y)%Qc.
Proof.
  unfold Qc_ltb, Qclt. rewrite negb_true_iff. split; intros H.
  - apply Qnot_le_lt. intros G. apply Qle_bool_iff in G. congruence.
  - destruct (Qle_bool y x) eqn:E; [|reflexivity]. apply Qle_bool_iff in E.
    exfalso. eapply Qlt_not_le; eassumption.
Qed.
(** rationals are totally ordered *)
#[export] Instance Qc_order : TotalOrder Qc.
Proof.
  refine {| Order.ltb := Qc_ltb; Order.eqb := Qc_eq_bool |}.
  - intros x y. split; [apply Qc_eq_bool_correct|]. intros ->.
    unfold Qc_eq_bool. destruct (Qc_eq_dec y y); congruence.
  - intros x. destruct (Qc_ltb x x) eqn:E; [|reflexivity].
    apply Qc_ltb_lt in E. exfalso. now apply (Qlt_irrefl x).
  - intros x y z H1 H2. apply Qc_ltb_lt in H1, H2. apply Qc_ltb_lt.
    eapply Qclt_trans; eassumption.
  - intros x y H1 H2. destruct (Qclt_le_dec x y) as [H|H].
    + apply Qc_ltb_lt in H. congruence.
    + destruct (Qclt_le_dec y x) as [G|G].
      * apply Qc_ltb_lt in G. congruence.
      * now apply Qcle_antisym.
Defined.

Local Open Scope Q_scope.
Lemma Qc_mid (x y : Qc) : (x < y)%Qc -> exists z : Qc, (x < z)%Qc /\ (z < y)%Qc.
Proof.
  intros H. exists (Q2Qc ((x + y) / 2)).
  unfold Qclt in *. unfold Q2Qc; cbn [this].
  set (a := this x) in *. set (b := this y) in *. clearbody a b.
  rewrite Qred_correct. split.
  - apply Qlt_shift_div_l; [reflexivity|]. setoid_replace (a * 2) with (a + a) by ring.
    now apply Qplus_lt_r.
  - apply Qlt_shift_div_r; [reflexivity|]. setoid_replace (b * 2) with (b + b) by ring.
    now apply Qplus_lt_l.
Qed.
Lemma Qc_below (x : Qc) : exists z : Qc, (z < x)%Qc.
Proof.
  exists (Q2Qc (x - 1)). unfold Qclt, Q2Qc. cbn [this]. rewrite Qred_correct.
  set (a := this x). setoid_replace a with (a + 0) at 2 by ring. now apply Qplus_lt_r.
Qed.
Lemma Qc_above (x : Qc) : exists z : Qc, (x < z)%Qc.
Proof.
  exists (Q2Qc (x + 1)). unfold Qclt, Q2Qc. cbn [this]. rewrite Qred_correct.
  set (a := this x). setoid_replace a with (a + 0) at 1 by ring. now apply Qplus_lt_r.
Qed.
