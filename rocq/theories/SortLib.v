(** * Python's [sorted(xs, key=...)] : a stable sort

    Trusted: CPython's sort is stable and orders by [<] on keys.  For a key order that is a
    strict weak order the result is unique, so any stable sort is a faithful model; this is
    insertion sort. *)
From Coq Require Import Sorted.
From Verif Require Import Prelude.

Section Sort.
Context {A K : Type}.
Variable klt : K -> K -> bool.     (* [<] on keys *)
Variable key : A -> K.
Fixpoint insert (x : A) (l : list A) : list A :=
  match l with
  | [] => [x]
  | y :: r => if klt (key y) (key x) then y :: insert x r else x :: y :: r
  end.
Fixpoint sorted_by (l : list A) : list A :=
  match l with [] => [] | x :: r => insert x (sorted_by r) end.

Lemma insert_in x l y : In y (insert x l) <-> y = x \/ In y l.
Proof.
  induction l as [|z l IH]; simpl; [intuition|]. destruct (klt (key z) (key x)); simpl; [rewrite IH|]; intuition.
Qed.
Lemma insert_perm x l : Permutation (insert x l) (x :: l).
Proof.
  induction l as [|z l IH]; simpl; [reflexivity|]. destruct (klt (key z) (key x)); [|reflexivity].
  rewrite IH. apply perm_swap.
Qed.
Lemma sorted_perm l : Permutation (sorted_by l) l.
Proof. induction l; simpl; [reflexivity|]. rewrite insert_perm. now constructor. Qed.
Lemma sorted_in l x : In x (sorted_by l) <-> In x l.
Proof. split; apply Permutation_in; [|symmetry]; apply sorted_perm. Qed.
Lemma sorted_length l : length (sorted_by l) = length l.
Proof. apply Permutation_length, sorted_perm. Qed.

Hypothesis klt_trans : forall a b c, klt a b = true -> klt b c = true -> klt a c = true.
Hypothesis klt_asym : forall a b, klt a b = true -> klt b a = false.
Hypothesis kle_trans : forall a b c, klt b a = false -> klt c b = false -> klt c a = false.

Definition kle (a b : A) : Prop := klt (key b) (key a) = false.
Lemma insert_sorted x l : StronglySorted kle l -> StronglySorted kle (insert x l).
Proof using klt_asym kle_trans.
  induction l as [|y l IH]; simpl; intros S.
  - constructor; [constructor|constructor].
  - inversion S as [|? ? S' F]; subst. destruct (klt (key y) (key x)) eqn:E.
    + constructor; [auto|]. apply Forall_forall. intros z Hz. apply insert_in in Hz.
      rewrite Forall_forall in F. destruct Hz as [->|Hz]; [|auto]. unfold kle. auto.
    + constructor; [assumption|]. apply Forall_forall. intros z [<-|Hz]; [exact E|].
      rewrite Forall_forall in F. unfold kle in *. eapply kle_trans; [exact E|]. apply F; assumption.
Qed.
Lemma sorted_sorted l : StronglySorted kle (sorted_by l).
Proof using klt_asym kle_trans. induction l; simpl; [constructor|]. now apply insert_sorted. Qed.

Lemma insert_front x l : (forall y, In y l -> klt (key y) (key x) = false) -> insert x l = x :: l.
Proof. destruct l as [|y l]; simpl; intros H; [reflexivity|]. now rewrite (H y (or_introl eq_refl)). Qed.
(** stability: filtering commutes with sorting *)
Lemma insert_filter p x l : StronglySorted kle l ->
  filter p (insert x l) = if p x then insert x (filter p l) else filter p l.
Proof using kle_trans.
  induction l as [|y l IH]; simpl; intros S.
  - destruct (p x); reflexivity.
  - inversion S as [|? ? S' F]; subst. rewrite Forall_forall in F. destruct (klt (key y) (key x)) eqn:E; simpl.
    + rewrite (IH S'). destruct (p x), (p y) eqn:Py; simpl; rewrite ?E; reflexivity.
    + destruct (p x), (p y) eqn:Py; simpl; rewrite ?E; try reflexivity.
      rewrite insert_front; [reflexivity|]. intros z Hz. apply filter_In in Hz. destruct Hz as [Hz _].
      specialize (F z Hz). unfold kle in F. eapply kle_trans; eauto.
Qed.
Lemma sorted_filter p l : filter p (sorted_by l) = sorted_by (filter p l).
Proof using klt_asym kle_trans.
  induction l as [|x l IH]; simpl; [reflexivity|].
  rewrite insert_filter by apply sorted_sorted. destruct (p x); simpl; now rewrite IH.
Qed.
Lemma sorted_id l : StronglySorted kle l -> sorted_by l = l.
Proof using.
  induction l as [|x l IH]; simpl; intros S; [reflexivity|].
  inversion S as [|? ? S' F]; subst. rewrite (IH S'). apply insert_front.
  intros y Hy. rewrite Forall_forall in F. now apply F.
Qed.
End Sort.

Lemma sorted_ext {A K K'} (lt1 : K -> K -> bool) (lt2 : K' -> K' -> bool) (k1 : A -> K) (k2 : A -> K') l :
  (forall x y, In x l -> In y l -> lt1 (k1 x) (k1 y) = lt2 (k2 x) (k2 y)) ->
  sorted_by lt1 k1 l = sorted_by lt2 k2 l.
Proof.
  induction l as [|x l IH]; intros H; simpl; [reflexivity|].
  rewrite IH by (intros; apply H; simpl; auto).
  assert (G : forall m, (forall y, In y m -> In y l) -> insert lt1 k1 x m = insert lt2 k2 x m).
  { induction m as [|y m IHm]; intros Hm; simpl; [reflexivity|].
    rewrite (H y x) by (first [now left | right; apply Hm; now left]). rewrite IHm by (intros; apply Hm; simpl; auto). reflexivity. }
  apply G. intros y. apply sorted_in.
Qed.
Lemma sorted_map {A B K} (lt : K -> K -> bool) (f : A -> B) (k : B -> K) l :
  sorted_by lt k (map f l) = map f (sorted_by lt (fun x => k (f x)) l).
Proof.
  induction l as [|x l IH]; simpl; [reflexivity|]. rewrite IH. generalize (sorted_by lt (fun x => k (f x)) l).
  induction l0 as [|y l0 IHl]; simpl; [reflexivity|]. destruct (lt _ _); simpl; [now rewrite IHl|reflexivity].
Qed.
(** two sorted lists with the same elements are equal (strict orders) *)
Lemma strict_sorted_unique {A} (R : A -> A -> Prop) l1 l2 :
  (forall a, ~ R a a) -> (forall a b, R a b -> R b a -> False) ->
  StronglySorted R l1 -> StronglySorted R l2 -> (forall x, In x l1 <-> In x l2) -> l1 = l2.
Proof.
  intros IR AS. revert l2. induction l1 as [|a l1 IH]; intros l2 S1 S2 E.
  - destruct l2 as [|b l2]; [reflexivity|]. exfalso. apply (proj2 (E b)). simpl; auto.
  - destruct l2 as [|b l2]; [exfalso; apply (proj1 (E a)); simpl; auto|].
    inversion S1 as [|? ? S1' F1]; subst. inversion S2 as [|? ? S2' F2]; subst.
    rewrite Forall_forall in F1, F2.
    assert (a = b).
    { destruct (proj1 (E a) (or_introl eq_refl)) as [->|Ha]; [reflexivity|].
      destruct (proj2 (E b) (or_introl eq_refl)) as [->|Hb]; [reflexivity|].
      exfalso. eapply AS; eauto. }
    subst b. f_equal. apply IH; auto. intros x. split; intros Hx.
    + destruct (proj1 (E x) (or_intror Hx)) as [->|H]; [|assumption]. exfalso. eapply IR; eauto.
    + destruct (proj2 (E x) (or_intror Hx)) as [->|H]; [|assumption]. exfalso. eapply IR; eauto.
Qed.
