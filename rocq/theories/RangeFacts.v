(** * Facts about cuts, and the [cord] tactic that decides cut-order goals *)
From Verif Require Import Prelude Order Range.

Section Facts.
Context {T : Type} {O : TotalOrder T}.

Definition cltb (a b : cut T) : bool := cut_lt a b.

Lemma tri (x y : T) :
  (ltb x y = true /\ ltb y x = false /\ eqb x y = false) \/
  (ltb x y = false /\ ltb y x = true /\ eqb x y = false) \/
  (x = y /\ ltb x y = false /\ ltb y x = false /\ eqb x y = true).
Proof.
  destruct (ltb x y) eqn:E; destruct (ltb y x) eqn:F.
  - pose proof (ltb_trans _ _ _ E F) as G. rewrite ltb_irrefl in G. discriminate.
  - left. repeat split. apply eqb_neq. intros ->. rewrite ltb_irrefl in E. discriminate.
  - right; left. repeat split. apply eqb_neq. intros ->. rewrite ltb_irrefl in F. discriminate.
  - right; right. pose proof (ltb_total _ _ E F) as ->. repeat split; auto. apply eqb_refl.
Qed.

Lemma cmp_cases (x y : T) (c : Z) :
  (if ltb x y then -1 else if ltb y x then 1 else c)%Z =
  (if ltb x y then -1 else if eqb x y then c else 1)%Z.
Proof.
  destruct (tri x y) as [(A & B & C)|[(A & B & C)|(E & A & B & C)]];
    rewrite ?A, ?B, ?C; reflexivity.
Qed.
Definition lt_table (a b : cut T) : bool :=
  match a, b with
  | BelowAll, BelowAll => false
  | BelowAll, _ => true
  | AboveAll, _ => false
  | _, BelowAll => false
  | _, AboveAll => true
  | BelowV x, AboveV y => negb (ltb y x)
  | BelowV x, BelowV y | AboveV x, AboveV y | AboveV x, BelowV y => ltb x y
  end.
Lemma cut_lt_table a b : cut_lt a b = lt_table a b.
Proof.
  unfold cut_lt. destruct a as [|x|x|], b as [|y|y|]; simpl; try reflexivity;
    destruct (tri x y) as [(A & B & C)|[(A & B & C)|(E & A & B & C)]];
    rewrite ?A, ?B; reflexivity.
Qed.
Lemma le_lt_trans x y z : ltb y x = false -> ltb y z = true -> ltb x z = true.
Proof.
  intros H G. destruct (tri x y) as [(A & B & C)|[(A & B & C)|(E & A & B & C)]].
  - eapply ltb_trans; eassumption.
  - congruence.
  - subst. assumption.
Qed.
Lemma lt_le_trans x y z : ltb x y = true -> ltb z y = false -> ltb x z = true.
Proof.
  intros H G. destruct (tri y z) as [(A & B & C)|[(A & B & C)|(E & A & B & C)]].
  - eapply ltb_trans; eassumption.
  - congruence.
  - subst. assumption.
Qed.
Lemma le_trans_b x y z : ltb y x = false -> ltb z y = false -> ltb z x = false.
Proof.
  intros H G. destruct (ltb z x) eqn:E; [|reflexivity].
  rewrite (lt_le_trans z x y E H) in G. discriminate.
Qed.
Lemma lt_asym_b x y : ltb x y = true -> ltb y x = false.
Proof.
  intros H. destruct (ltb y x) eqn:E; [|reflexivity].
  pose proof (ltb_trans _ _ _ H E) as F. rewrite ltb_irrefl in F. discriminate.
Qed.

Definition cut_order : TotalOrder (cut T).
Proof.
  refine {| ltb := cut_lt; eqb := cut_eq |}.
  - intros [|x|x|] [|y|y|]; unfold cut_eq; simpl; split; intros H; try congruence;
      try (apply eqb_eq in H; congruence);
      inversion H; apply eqb_refl.
  - intros [|x|x|]; rewrite cut_lt_table; simpl; rewrite ?ltb_irrefl; reflexivity.
  - intros [|x|x|] [|y|y|] [|z|z|]; rewrite !cut_lt_table; simpl; intros H1 H2;
      rewrite ?negb_true_iff in *; try congruence;
      eauto using ltb_trans, le_lt_trans, lt_le_trans, le_trans_b, lt_asym_b.
  - intros [|x|x|] [|y|y|]; rewrite !cut_lt_table; simpl; intros H1 H2;
      rewrite ?negb_false_iff in *; try congruence;
      try (f_equal; now apply ltb_total).
Defined.

Lemma cltb_irrefl (a : cut T) : cltb a a = false.
Proof. exact (ltb_irrefl (TotalOrder:=cut_order) a). Qed.
Lemma cltb_trans (a b c : cut T) : cltb a b = true -> cltb b c = true -> cltb a c = true.
Proof. exact (ltb_trans (TotalOrder:=cut_order) a b c). Qed.
Lemma cltb_total (a b : cut T) : cltb a b = false -> cltb b a = false -> a = b.
Proof. exact (ltb_total (TotalOrder:=cut_order) a b). Qed.

Lemma compare_spec (a b : cut T) :
  compare_to a b = (if cltb a b then -1 else if cltb b a then 1 else 0)%Z.
Proof.
  unfold cltb, cut_lt. destruct a as [|x|x|], b as [|y|y|]; simpl; try reflexivity;
    destruct (tri x y) as [(A & B & C)|[(A & B & C)|(E & A & B & C)]];
    rewrite ?A, ?B; reflexivity.
Qed.
Lemma cmp_le0 (a b : cut T) : (compare_to a b <=? 0)%Z = negb (cltb b a).
Proof.
  rewrite compare_spec. destruct (cltb a b) eqn:E.
  - destruct (cltb b a) eqn:F; [|reflexivity]. exfalso.
    pose proof (cltb_trans _ _ _ E F) as G. now rewrite cltb_irrefl in G.
  - destruct (cltb b a); reflexivity.
Qed.
Lemma cmp_ge0 (a b : cut T) : (0 <=? compare_to a b)%Z = negb (cltb a b).
Proof. rewrite compare_spec. destruct (cltb a b), (cltb b a); reflexivity. Qed.
Lemma cut_le_spec a b : cut_le a b = negb (cltb b a).
Proof.
  unfold cut_le. rewrite compare_spec. destruct (cltb a b) eqn:E.
  - destruct (cltb b a) eqn:F; [|reflexivity]. exfalso.
    pose proof (cltb_trans _ _ _ E F) as G.
    now rewrite cltb_irrefl in G.
  - destruct (cltb b a); reflexivity.
Qed.
Lemma cut_ge_spec a b : cut_ge a b = negb (cltb a b).
Proof.
  unfold cut_ge. rewrite compare_spec. destruct (cltb a b), (cltb b a); reflexivity.
Qed.
Lemma cut_gt_spec a b : cut_gt a b = cltb b a.
Proof.
  unfold cut_gt. rewrite compare_spec. destruct (cltb a b) eqn:E.
  - destruct (cltb b a) eqn:F; [|reflexivity]. exfalso.
    pose proof (cltb_trans _ _ _ E F) as G.
    now rewrite cltb_irrefl in G.
  - destruct (cltb b a); reflexivity.
Qed.
Lemma cut_eq_spec a b : cut_eq a b = true <-> a = b.
Proof. apply (eqb_eq (TotalOrder:=cut_order)). Qed.
Lemma cut_eq_bool a b : cut_eq a b = negb (cltb a b) && negb (cltb b a).
Proof.
  destruct (cut_eq a b) eqn:E.
  - apply cut_eq_spec in E. subst.
    rewrite cltb_irrefl. reflexivity.
  - destruct (cltb a b) eqn:F; [reflexivity|]. destruct (cltb b a) eqn:G; [reflexivity|].
    pose proof (cltb_total _ _ F G) as ->.
    rewrite (proj2 (cut_eq_spec b b) eq_refl) in E. discriminate.
Qed.
Lemma is_less_than_spec c x : is_less_than c x = negb (cltb (BelowV x) c).
Proof.
  unfold cltb. rewrite cut_lt_table. destruct c as [|y|y|]; simpl; try reflexivity;
    destruct (tri x y) as [(A & B & C)|[(A & B & C)|(E & A & B & C)]]; subst;
    rewrite ?A, ?B, ?ltb_irrefl, ?eqb_refl; try reflexivity.
  destruct (eqb y x) eqn:F; [apply eqb_eq in F; subst; rewrite ltb_irrefl in A; discriminate|reflexivity].
Qed.
Lemma below_all_spec c : is_below_all c = negb (cltb BelowAll c).
Proof. destruct c; reflexivity. Qed.
Lemma above_all_spec c : is_above_all c = negb (cltb c AboveAll).
Proof. destruct c; reflexivity. Qed.
Lemma below_all_least c : cltb c BelowAll = false.
Proof. destruct c; reflexivity. Qed.
Lemma above_all_greatest c : cltb AboveAll c = false.
Proof. destruct c; reflexivity. Qed.

Lemma mk_range_spec lb ub :
  mk_range lb ub =
  if negb (cltb ub lb) && cltb lb AboveAll && cltb BelowAll ub then Ok (MkRange lb ub)
  else if negb (cltb ub lb) then Raise ValueError
  else if negb (cltb lb AboveAll && cltb BelowAll ub) then Raise AssertionError
  else Raise ValueError.
Proof.
  unfold mk_range. rewrite cut_le_spec, above_all_spec, below_all_spec.
  destruct (cltb ub lb), (cltb lb AboveAll), (cltb BelowAll ub); reflexivity.
Qed.

(** The embedding of finitely many cuts into Z. *)
Lemma cut_rank (l : list (cut T)) :
  exists f : cut T -> Z,
    (forall a b, In a l -> cltb a b = (f a <? f b)%Z) /\
    (forall a b, In a l -> In b l -> f a = f b -> a = b).
Proof.
  exists (rank (O:=cut_order) l). split; intros a b.
  - apply (rank_lt (O:=cut_order)).
  - apply (rank_inj (O:=cut_order)).
Qed.
Lemma cut_dec (a b : cut T) : {a = b} + {a <> b}.
Proof.
  destruct (cut_eq a b) eqn:E; [left; now apply cut_eq_spec | right].
  intros H. apply cut_eq_spec in H. congruence.
Qed.
End Facts.

(** Tactic: reduce every cut comparison to [cltb], embed into Z, call [lia]. *)
Ltac cnotin c l :=
  lazymatch l with context [@cons _ c _] => fail | _ => idtac end.
Ltac cut_gather l :=
  match goal with
  | _ : context [cltb ?a _] |- _ =>
      let _ := match goal with _ => cnotin a l end in cut_gather constr:(a :: l)
  | _ : context [cltb _ ?a] |- _ =>
      let _ := match goal with _ => cnotin a l end in cut_gather constr:(a :: l)
  | |- context [cltb ?a _] =>
      let _ := match goal with _ => cnotin a l end in cut_gather constr:(a :: l)
  | |- context [cltb _ ?a] =>
      let _ := match goal with _ => cnotin a l end in cut_gather constr:(a :: l)
  | |- @eq (cut _) ?a _ =>
      let _ := match goal with _ => cnotin a l end in cut_gather constr:(a :: l)
  | |- @eq (cut _) _ ?a =>
      let _ := match goal with _ => cnotin a l end in cut_gather constr:(a :: l)
  | _ : @eq (cut _) ?a _ |- _ =>
      let _ := match goal with _ => cnotin a l end in cut_gather constr:(a :: l)
  | _ : @eq (cut _) _ ?a |- _ =>
      let _ := match goal with _ => cnotin a l end in cut_gather constr:(a :: l)
  | _ => l
  end.
Ltac cut_norm :=
  unfold encloses, is_connected, contains, is_empty, cut_ge in *;
  rewrite ?cmp_le0, ?cmp_ge0, ?compare_spec, ?cut_le_spec, ?cut_ge_spec, ?cut_gt_spec, ?cut_eq_bool,
          ?is_less_than_spec, ?below_all_spec, ?above_all_spec, ?below_all_least,
          ?above_all_greatest in *.
Ltac in_tac := simpl; tauto.
Ltac cut_embed :=
  change (@cut_lt ?T ?O) with (@cltb T O) in *;
  match goal with
  | |- context [@cltb ?T ?O _ _] => cut_embed_at T O
  | _ : context [@cltb ?T ?O _ _] |- _ => cut_embed_at T O
  end
with cut_embed_at T O :=
  let l := cut_gather constr:(@nil (cut T)) in
  let L := fresh "L" in
  pose (L := l);
  let f := fresh "f" in let Hlt := fresh "Hlt" in let Hinj := fresh "Hinj" in
  destruct (@cut_rank T O L) as (f & Hlt & Hinj);
  repeat match goal with
  | H : context [cltb ?a ?b] |- _ => rewrite (Hlt a b) in H by (subst L; in_tac)
  | |- context [cltb ?a ?b] => rewrite (Hlt a b) by (subst L; in_tac)
  end;
  repeat match goal with
  | H : @eq (cut _) ?a ?b |- _ => apply (f_equal f) in H
  end;
  try match goal with
  | |- @eq (cut _) ?a ?b => apply Hinj; [subst L; in_tac | subst L; in_tac | ]
  end;
  clear Hinj; clearbody L; clear Hlt.
Ltac cord := cut_norm; try cut_embed; lia.
