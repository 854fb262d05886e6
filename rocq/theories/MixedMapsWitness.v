(** * C119: the hypotheses are met by concrete cases, and statements that are false *)
From Coq Require Import ZArith.
From Verif Require Import Prelude Order Range RangeFacts RangeProofs1 SortedDict RangeSet RangeSetOps RangeSetProofs RangeSetProps RangePartial MixedSets MixedSetsProps MixedSetsWitness RangeMap RangeMapProofs MixedMaps MixedMapsProps.
Local Open Scope nat_scope.

(** numbers below 1000 are of one type, the others of another (MixedSetsWitness.v) *)
Definition ints119 : list (range Z * nat) := [(from115 10 12, 7); (from115 1 5, 8); (from115 10 12, 9)].
Definition both119 : list (range Z * nat) := [(from115 10 12, 7); (from115 2000 2001, 8); (from115 1 5, 9)].
(** Range.all() first: everything is absorbed *)
Definition all_first119 : list (range Z * nat) := [(all115, 7); (from115 1 5, 8); (from115 2000 2001, 9)].
Definition low119 : list (range Z * nat) := [(upto115 5, 7)].
Ltac made119 := repeat (apply Forall_cons; [first [apply from_made; [reflexivity|lia]|apply upto_made|exact all_made]|]); apply Forall_nil.
Example ints119_made : Forall (made kind115) (map fst ints119). Proof. made119. Qed.
Example both119_made : Forall (made kind115) (map fst both119). Proof. made119. Qed.
Example all_first119_made : Forall (made kind115) (map fst all_first119). Proof. made119. Qed.
Example low119_made : Forall (made kind115) (map fst low119). Proof. made119. Qed.
Example ints119_map : exists m, pimmutablerangemap lt115 eqb ints119 = Ok m /\ as_dict m = [(from115 10 12, 9); (from115 1 5, 8)] /\
  prm_getitem lt115 eqb m 11%Z = Ok (Some 9) /\ prm_getitem lt115 eqb m 7%Z = Ok None /\ prm_rightmost lt115 eqb m 7%Z = Ok (Some 8) /\ prm_leftmost lt115 eqb m 7%Z = Ok (Some 9) /\
  prm_enclosed_by lt115 eqb Nat.eqb m (from115 0 20) = Ok [8; 9] /\
  prm_getitem lt115 eqb m 2000%Z = Raise TypeError /\ prm_contains lt115 eqb m 2000%Z = Raise TypeError /\ prm_rightmost lt115 eqb m 2000%Z = Raise TypeError /\ prm_enclosed_by lt115 eqb Nat.eqb m (from115 2000 2001) = Raise TypeError.
Proof. eexists. split; [reflexivity|]. repeat split. Qed.
Example ints119_one_type : one_type kind115 (map fst ints119).
Proof. destruct ints119_map as (m & E & _). exact (proj1 (proj1 (proj1 (C119_made kind115 ints119 ints119_made) m) E)). Qed.
Example both119_raises : pimmutablerangemap lt115 eqb both119 = Raise TypeError.
Proof. reflexivity. Qed.
Example low119_map : exists m, pimmutablerangemap lt115 eqb low119 = Ok m /\ prm_rightmost lt115 eqb m 2000%Z = Ok (Some 7).
Proof. eexists. split; reflexivity. Qed.
(** get_enclosed_by may also find nothing: a range with no lower bound of the other type encloses no key that is unbounded above, and is not compared further *)
Example nothing119 : exists m, pimmutablerangemap lt115 eqb [(MkRange BelowAll (AboveV 5%Z), 7)] = Ok m /\ prm_enclosed_by lt115 eqb Nat.eqb m (from115 2000 2001) = Ok [].
Proof. eexists. split; reflexivity. Qed.

(** C119: keys of two types do not always give a TypeError: if Range.all() is the first key, it takes them all in, and the exception is the ValueError of connected keys. *)
Theorem C119_always_TypeError_refuted : ~ forall pairs : list (range Z * nat), Forall (made kind115) (map fst pairs) -> ~ one_type kind115 (map fst pairs) -> pimmutablerangemap lt115 eqb pairs = Raise TypeError.
Proof.
  intros H. assert (X : pimmutablerangemap lt115 eqb all_first119 = Raise TypeError).
  - apply H; [exact all_first119_made|]. intros O. specialize (O (from115 1 5) (from115 2000 2001) 1%Z 2000%Z). cbn [map fst all_first119 In] in O. assert (E : kind115 1 = kind115 2000) by (apply O; [auto|auto|left; left; reflexivity|left; left; reflexivity]). vm_compute in E. discriminate E.
  - vm_compute in X. discriminate X.
Qed.
Print Assumptions C119_made.
Print Assumptions C119_lookups.
Print Assumptions C119_other_type.
Print Assumptions C119_rebuilt.
Print Assumptions C119_always_TypeError_refuted.
