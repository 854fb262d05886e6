(** * C115: the hypotheses are met by concrete cases, and a statement that is false *)
From Coq Require Import ZArith.
From Verif Require Import Prelude Order Range RangeFacts RangeProofs1 SortedDict RangeSet RangeSetOps RangeSetProofs RangeSetProps RangePartial MixedSets MixedSetsProps.
Local Open Scope nat_scope.

(** Numbers below 1000 stand for ints, the others for values of another type (strings, say). *)
Definition kind115 (x : Z) : nat := if (x <? 1000)%Z then 0 else 1.
Notation lt115 := (typed_lt kind115).
Definition from115 (a b : Z) : range Z := MkRange (BelowV a) (AboveV b).
Definition upto115 (b : Z) : range Z := MkRange BelowAll (AboveV b).
Definition all115 : range Z := MkRange BelowAll AboveAll.

Lemma from_made a b : kind115 a = kind115 b -> (a <= b)%Z -> made kind115 (from115 a b).
Proof.
  intros K L. apply C115_made. split.
  - apply valid_factory. unfold valid, from115, mk_range, cut_le, is_above_all, is_below_all; cbn [lower upper compare_to ltb Z_order]. destruct (Z.ltb_spec a b); [reflexivity|]. destruct (Z.ltb_spec b a); [lia|reflexivity].
  - intros x y [X|X] [Y|Y]; cbn in X, Y; destruct X as [X|[X|[]]]; destruct Y as [Y|[Y|[]]]; congruence.
Qed.
Lemma upto_made b : made kind115 (upto115 b).
Proof.
  apply C115_made. split; [apply valid_factory; reflexivity|]. intros x y [X|X] [Y|Y]; cbn in X, Y; destruct X as [X|[X|[]]]; destruct Y as [Y|[Y|[]]]; congruence.
Qed.
Lemma all_made : made kind115 all115.
Proof. left. reflexivity. Qed.

(** ints, a refused range of the other type, an add_all that is cut off, more ints *)
Definition calls115 : list (op Z) := [Add (from115 1 5); Add (from115 2000 2005); AddAll [from115 10 12; from115 2000 2001; from115 20 30]; Add (from115 5 8)].
Lemma calls115_made : Forall (made_op kind115) calls115.
Proof. unfold calls115, made_op. repeat (apply Forall_cons; [cbn [op_ranges]; repeat (apply Forall_cons; [apply from_made; [reflexivity|lia]|]); apply Forall_nil|]); apply Forall_nil. Qed.
Example calls115_leave : as_ranges (prun lt115 eqb calls115) = [from115 1 8; from115 10 12].
Proof. reflexivity. Qed.
Example calls115_outcomes : map (fun n => snd (pstep lt115 eqb (prun lt115 eqb (firstn n calls115)) (nth n calls115 Clear))) [0; 1; 2; 3] = [Ok tt; Raise TypeError; Raise TypeError; Ok tt].
Proof. reflexivity. Qed.
Example clash115 : clashes kind115 (as_ranges (prun lt115 eqb calls115)) (from115 2000 2005).
Proof. exists (from115 1 8), 1%Z, 2000%Z. split; [left; reflexivity|]. split; [left; left; reflexivity|]. split; [left; left; reflexivity|]. vm_compute. discriminate. Qed.
Example no_clash115 : ~ clashes kind115 (as_ranges (prun lt115 eqb calls115)) (from115 3 11).
Proof.
  intros (m & x & y & J & X & Y & Q). apply Q. rewrite calls115_leave in J. destruct J as [<-|[<-|[]]]; destruct X as [X|X], Y as [Y|Y]; cbn in X, Y; destruct X as [X|[X|[]]]; destruct Y as [Y|[Y|[]]]; try discriminate; inversion X; inversion Y; reflexivity.
Qed.
(** Range.all() takes every range in, after which ranges of any type can be added (they are in already) *)
Example after_all115 : let ops := calls115 ++ [Add all115] in Forall (made_op kind115) ops /\ as_ranges (prun lt115 eqb ops) = [all115] /\ pstep lt115 eqb (prun lt115 eqb ops) (Add (from115 2000 2005)) = ([(BelowAll, all115)], Ok tt).
Proof. split; [apply Forall_app; split; [exact calls115_made|]; apply Forall_cons; [apply Forall_cons; [exact all_made|constructor]|constructor]|]. split; reflexivity. Qed.
(** after clear() the set may hold the other type *)
Example after_clear115 : as_ranges (prun lt115 eqb (calls115 ++ [Clear; Add (from115 2000 2005)])) = [from115 2000 2005].
Proof. reflexivity. Qed.
(** questions *)
Example asked115 : let d := prun lt115 eqb calls115 in
  pset_contains lt115 eqb d 2000%Z = Raise TypeError /\ pleftmost lt115 eqb d 2000%Z = Raise TypeError /\ prightmost lt115 eqb d 2000%Z = Raise TypeError /\
  pset_encloses lt115 eqb d (from115 2000 2001) = Raise TypeError /\ pset_encloses lt115 eqb d (upto115 2000) = Ok false /\ pranges_enclosed_by lt115 eqb d (upto115 2000) = Raise TypeError /\
  pset_contains lt115 eqb d 11%Z = Ok true /\ pset_intersects lt115 eqb d (from115 3 11) = Ok true.
Proof. repeat split. Qed.
(** C115: not every question about a value of another type raises: the set {(-inf..5]} gives its range as the rightmost one containing or below a string. *)
Theorem C115_always_TypeError_refuted : ~ forall ops x, Forall (made_op kind115) ops ->
  (exists m z, In m (as_ranges (prun lt115 eqb ops)) /\ has_endpoint m z /\ kind115 z <> kind115 x) -> prightmost lt115 eqb (prun lt115 eqb ops) x = Raise TypeError.
Proof.
  intros H. assert (X : prightmost lt115 eqb (prun lt115 eqb [Add (upto115 5)]) 2000%Z = Raise TypeError).
  - apply H; [apply Forall_cons; [apply Forall_cons; [apply upto_made|constructor]|constructor]|]. exists (upto115 5), 5%Z. split; [left; reflexivity|]. split; [right; right; left; reflexivity|]. vm_compute. discriminate.
  - vm_compute in X. discriminate X.
Qed.
Print Assumptions C115_made.
Print Assumptions C115_call.
Print Assumptions C115_atomic.
Print Assumptions C115_history.
Print Assumptions C115_questions.
Print Assumptions C115_other_type.
Print Assumptions C115_bisection.
Print Assumptions C115_always_TypeError_refuted.
