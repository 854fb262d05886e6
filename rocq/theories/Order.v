(** * Total orders

    range.py:72-75 requires the endpoint type to be comparable with [<] in a way
    consistent with [==] (range.py:320).  The code touches endpoints only through
    [<], [==] and [hash].  We model an endpoint type as a type with boolean [<]
    and [==]; endpoints that compare [==] are identified (one Coq value per
    [==]-class). *)
From Verif Require Import Prelude.

(** the values of a range (range.py:72-75): <, == and hashing behave as those of a total order *)
Class TotalOrder (T : Type) := {
  ltb : T -> T -> bool;                                   (* Python [<]  *)
  eqb : T -> T -> bool;                                   (* Python [==] *)
  eqb_eq : forall x y, eqb x y = true <-> x = y;
  ltb_irrefl : forall x, ltb x x = false;
  ltb_trans : forall x y z, ltb x y = true -> ltb y z = true -> ltb x z = true;
  ltb_total : forall x y, ltb x y = false -> ltb y x = false -> x = y
}.

(** the strict order *)
Definition lt {T} `{TotalOrder T} (x y : T) : Prop := ltb x y = true.
(** the order *)
Definition le {T} `{TotalOrder T} (x y : T) : Prop := ltb y x = false.

(** Integers, used in examples and by span.py. *)
#[export] Instance Z_order : TotalOrder Z.
Proof.
  refine {| ltb := Z.ltb; eqb := Z.eqb |}; intros; lia.
Defined.

Section Facts.
Context {T : Type} {O : TotalOrder T}.

Lemma eqb_refl x : eqb x x = true.
Proof. now apply eqb_eq. Qed.
Lemma eqb_neq x y : eqb x y = false <-> x <> y.
Proof.
  split; intros H.
  - intros E. apply eqb_eq in E. congruence.
  - destruct (eqb x y) eqn:E; [apply eqb_eq in E; contradiction | reflexivity].
Qed.
Lemma lt_le x y : lt x y -> le x y.
Proof.
  unfold lt, le. intros H. destruct (ltb y x) eqn:E; [|reflexivity].
  pose proof (ltb_trans _ _ _ H E) as F. now rewrite ltb_irrefl in F.
Qed.
Lemma le_lt_or_eq x y : le x y <-> lt x y \/ x = y.
Proof.
  split.
  - unfold lt, le. intros H. destruct (ltb x y) eqn:E; [now left|right].
    now apply ltb_total.
  - intros [H|H]; [now apply lt_le | subst; apply ltb_irrefl].
Qed.
Lemma not_le_lt x y : ~ le x y <-> lt y x.
Proof. unfold lt, le. destruct (ltb y x); split; congruence. Qed.

(** Finitely many elements embed, order and all, into the integers: the rank
    of [x] is the number of elements of [l] below it. *)
Definition rank (l : list T) (x : T) : Z :=
  Z.of_nat (length (filter (fun y => ltb y x) l)).

Lemma filter_le_len {A} (p q : A -> bool) l :
  (forall x, p x = true -> q x = true) ->
  length (filter p l) <= length (filter q l).
Proof.
  intros H. induction l as [|a l IH]; simpl; [lia|].
  destruct (p a) eqn:E.
  - rewrite (H _ E). simpl. lia.
  - destruct (q a); simpl; lia.
Qed.
Lemma filter_lt_len {A} (p q : A -> bool) l x :
  (forall x, p x = true -> q x = true) ->
  In x l -> p x = false -> q x = true ->
  length (filter p l) < length (filter q l).
Proof.
  intros H Hin Hp Hq. induction l as [|a l IH]; simpl; [contradiction|].
  destruct Hin as [->|Hin].
  - rewrite Hp, Hq. simpl. pose proof (filter_le_len p q l H). lia.
  - specialize (IH Hin). destruct (p a) eqn:E.
    + rewrite (H _ E). simpl. lia.
    + destruct (q a); simpl; lia.
Qed.

Lemma rank_lt l x y : In x l -> ltb x y = (rank l x <? rank l y)%Z.
Proof.
  intros Hx. unfold rank. destruct (ltb x y) eqn:E.
  - symmetry. apply Z.ltb_lt. apply inj_lt.
    apply filter_lt_len with x; [|assumption|apply ltb_irrefl|assumption].
    intros z Hz. eapply ltb_trans; eassumption.
  - symmetry. apply Z.ltb_ge. apply inj_le. apply filter_le_len.
    intros z Hz. destruct (ltb z x) eqn:F; [reflexivity|].
    destruct (ltb x z) eqn:G.
    + rewrite (ltb_trans _ _ _ G Hz) in E. discriminate.
    + pose proof (ltb_total _ _ F G) as ->. congruence.
Qed.
Lemma rank_inj l x y : In x l -> In y l -> rank l x = rank l y -> x = y.
Proof.
  intros Hx Hy H. apply ltb_total.
  - rewrite (rank_lt l) by assumption. lia.
  - rewrite (rank_lt l) by assumption. lia.
Qed.
End Facts.
