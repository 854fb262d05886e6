(** * Property theorems about range set objects: copies and builders (C22), hashing (C23),
    pickling (C24). *)
From Coq Require Import Sorted.
From Verif Require Import Prelude Order Range RangeFacts RangeProofs SortedDict RangeSet
  RangeSetOps RangeSetProofs RangeSetProofs2 RangeSetProps RangeSetHeap Pickle.

(** [observe w i] is the kind of object number [i] and what its [as_ranges()] lists. *)

(** C22: an immutable range set never changes, whatever is called afterwards on any object. *)
Theorem C22_immutable_never_changes : forall (T : Type) (O : TotalOrder T) (p q : list (cmd T)) (i : nat) l,
  observe (exec_all empty_world p) i = Some (KImm, l) ->
  observe (exec_all empty_world (p ++ q)) i = Some (KImm, l).
Proof.
  intros T O p q i l H. unfold exec_all. rewrite fold_left_app. apply imm_all; [|exact H].
  apply sep_all, sep_empty.
Qed.
Print Assumptions C22_immutable_never_changes.

(** C22: [immutable_copy()] (of a mutable or immutable set) and [build()] make a new immutable
    object listing the ranges the source has at that moment, and change no other object. *)
Theorem C22_copy : forall (T : Type) (O : TotalOrder T) (p : list (cmd T)) (i : nat) (k : kind) l c,
  observe (exec_all empty_world p) i = Some (k, l) ->
  c = (match k with KBuilder => Build i | _ => ImmutableCopy i end) ->
  let w := exec_all empty_world p in
  let w' := fst (exec w c) in
  snd (exec w c) = None /\
  observe w' (length (objs w)) = Some (KImm, l) /\ observe w (length (objs w)) = None /\
  (forall j, j < length (objs w) -> observe w' j = observe w j).
Proof.
  intros T O p i k l c H -> w w'.
  assert (S : Sep w) by apply sep_all, sep_empty.
  pose proof H as H0. unfold observe in H. fold w in H.
  destruct (nth_error (objs w) i) as [[k' a]|] eqn:E; [|discriminate]. inversion H; subst k' l.
  assert (E' : exec w (match k with KBuilder => Build i | _ => ImmutableCopy i end) = (alloc w KImm (deref w a), None)).
  { destruct k; cbn [exec]; now rewrite E. }
  unfold w'. rewrite E'. cbn [fst snd]. split; [reflexivity|]. split; [apply observe_new|]. split.
  - unfold observe. now rewrite (proj2 (nth_error_None (objs w) (length (objs w)))) by lia.
  - intros j L. now apply observe_alloc.
Qed.
Print Assumptions C22_copy.

(** C22: a call on one object never affects what another object lists. *)
Theorem C22_isolation : forall (T : Type) (O : TotalOrder T) (p : list (cmd T)) (i j : nat) (o : op T) (r : range T),
  i <> j -> j < length (objs (exec_all empty_world p)) ->
  observe (fst (exec (exec_all empty_world p) (Call i o))) j = observe (exec_all empty_world p) j /\
  observe (fst (exec (exec_all empty_world p) (BuilderAdd i r))) j = observe (exec_all empty_world p) j.
Proof.
  intros T O p i j o r NE L. assert (S : Sep (exec_all empty_world p)) by apply sep_all, sep_empty.
  split; apply frame; auto; simpl; congruence.
Qed.
Print Assumptions C22_isolation.

(** C22: hence each mutable set behaves as if it were alone: it is [run] of the calls made on
    it, whatever the interleaving with other objects (so C11-C21 apply to it), and a
    builder's result is the set of the ranges added to it. *)
Theorem C22_own_history : forall (T : Type) (O : TotalOrder T) (p q : list (cmd T)) (k : kind) c,
  (k = KMut /\ c = NewMutable) \/ (k = KBuilder /\ c = NewBuilder) ->
  let j := length (objs (exec_all empty_world p)) in
  observe (exec_all empty_world (p ++ c :: q)) j = Some (k, as_ranges (run (calls_on j k q))).
Proof.
  intros T O p q k c H j. unfold exec_all at 1. rewrite fold_left_app. cbn [fold_left].
  fold (exec_all empty_world p). set (w := exec_all empty_world p) in *.
  assert (S : Sep w) by apply sep_all, sep_empty.
  set (w1 := fst (exec w c)). assert (S1 : Sep w1) by now apply sep_exec.
  assert (N : obj_state w1 j = Some (k, create_mutable)).
  { unfold w1. destruct H as [[-> ->]|[-> ->]]; simpl; unfold obj_state, alloc, deref; simpl;
    (rewrite nth_error_app2 by (unfold j; lia)); unfold j; rewrite Nat.sub_diag; simpl;
    rewrite app_nth2 by lia; rewrite Nat.sub_diag; reflexivity. }
  pose proof (own_history q w1 j k create_mutable S1 N) as E.
  change (fold_left (fun w c => fst (exec w c)) q w1) with (exec_all w1 q).
  unfold obj_state in E. unfold observe. destruct (nth_error (objs (exec_all w1 q)) j) as [[k' a]|]; [|discriminate].
  unfold run. injection E as -> ->. reflexivity.
Qed.
Print Assumptions C22_own_history.

(** C22: a builder's result does not depend on the order or repetition of the additions. *)
Theorem C22_builder_order : forall (T : Type) (O : TotalOrder T) (rs1 rs2 : list (range T)),
  Forall factory_made rs1 -> Forall factory_made rs2 ->
  (forall r, is_empty r = false -> (In r rs1 <-> In r rs2)) ->
  exists d1 d2, build rs1 = Ok d1 /\ build rs2 = Ok d2 /\ as_ranges d1 = as_ranges d2 /\
    rs_eq d1 d2 = true /\ as_ranges d1 = as_ranges (run [AddAll rs1]).
Proof.
  intros T O rs1 rs2 F1 F2 E.
  assert (B : forall rs, Forall factory_made rs -> exists d, build rs = Ok d /\ d = run [AddAll rs]).
  { intros rs F. assert (V : Forall valid rs) by (revert F; apply Forall_impl; intros; now apply valid_factory).
    destruct (state_add_all [] [] rs state_nil V) as (d & D & _).
    exists d. unfold build, run. simpl. unfold add_all in D. unfold add_all, create_mutable. rewrite D. auto. }
  destruct (B rs1 F1) as (d1 & B1 & R1). destruct (B rs2 F2) as (d2 & B2 & R2).
  exists d1, d2. split; [assumption|]. split; [assumption|].
  assert (H : forall rs, Forall factory_made rs -> history [AddAll rs]) by (intros rs F; repeat constructor; exact F).
  destruct (C13_canonical T O [AddAll rs1] [AddAll rs2] (H _ F1) (H _ F2) E) as [C1 C2].
  rewrite R1, R2 in *. auto.
Qed.
Print Assumptions C22_builder_order.

Example C22_witness :
  let r1 := MkRange (BelowV 1%Z) (AboveV 3%Z) in
  let r2 := MkRange (AboveV 5%Z) (BelowV 8%Z) in
  let p := [NewMutable; Call 0 (Add r1); ImmutableCopy 0; NewBuilder; BuilderAdd 2 r2; Build 2] in
  observe (exec_all empty_world p) 1 = Some (KImm, [r1]) /\
  observe (exec_all empty_world (p ++ [Call 0 (Add r2); Call 0 Clear; BuilderAdd 2 r1])) 1 = Some (KImm, [r1]) /\
  observe (exec_all empty_world (p ++ [Call 0 (Add r2)])) 0 = Some (KMut, [r1; r2]).
Proof. repeat split. Qed.

(** C23: [hash(range_set)] (range.py:779-780) hashes the SortedValuesView returned by
    [as_ranges()], a fresh object per call whose class defines neither [__eq__] nor
    [__hash__]: the result is the identity hash of that view, whatever the ranges.
    [addr] is the identity of the view, [id_hash] the interpreter's identity hash. *)
Definition rs_hash {T} {O : TotalOrder T} (id_hash : nat -> Z) (addr : nat) (d : rset T) : Z := id_hash addr.
(** C23 is false: whatever the identity hash (injective on distinct objects), two calls on
    equal sets - even on the same set - with two live views give different hashes. *)
Theorem C23_equal_sets_equal_hash_refuted : forall (T : Type) (O : TotalOrder T) (id_hash : nat -> Z) (ops : list (op T)),
  (forall a b, id_hash a = id_hash b -> a = b) -> history ops ->
  rs_eq (run ops) (run ops) = true /\
  forall view1 view2, view1 <> view2 -> rs_hash id_hash view1 (run ops) <> rs_hash id_hash view2 (run ops).
Proof.
  intros T O h ops I H. split.
  - now apply C13_equality.
  - intros v1 v2 NE E. apply NE, I, E.
Qed.
Print Assumptions C23_equal_sets_equal_hash_refuted.
(** What does hold: equal sets list equal ranges, so a hash computed from the listed ranges
    (e.g. of [tuple(rs.as_ranges())]) agrees on equal sets. *)
Theorem C23_listed_ranges_hash : forall (T : Type) (O : TotalOrder T) (h : list (range T) -> Z) (ops1 ops2 : list (op T)),
  history ops1 -> history ops2 -> rs_eq (run ops1) (run ops2) = true ->
  h (as_ranges (run ops1)) = h (as_ranges (run ops2)).
Proof. intros T O h o1 o2 H1 H2 E. f_equal. now apply C13_equality. Qed.
Print Assumptions C23_listed_ranges_hash.
Example C23_witness : exists id_hash : nat -> Z, (forall a b, id_hash a = id_hash b -> a = b) /\ history demo.
Proof. exists Z.of_nat. split; [lia|exact demo_history]. Qed.

(** C24: pickling.  [reload f r] is the range after a round trip, [f <> 0] the identity of the
    rebuilt infinity objects. *)
Theorem C24_range : forall (T : Type) (O : TotalOrder T) (r : range T) (f : nat),
  factory_made r -> f <> 0 ->
  (* bounded ranges come back as they were *)
  (has_lower_bound r = true -> has_upper_bound r = true -> reload f r = in_process r) /\
  (* equality with the original holds exactly for them *)
  (prange_eq (in_process r) (reload f r) = true <-> has_lower_bound r = true /\ has_upper_bound r = true) /\
  (* membership always survives *)
  (forall x, p_contains (reload f r) x = contains r x) /\
  (* but a reloaded range always claims to be bounded *)
  p_has_lower_bound (reload f r) = true /\ p_has_upper_bound (reload f r) = true.
Proof.
  intros T O r f V F. apply valid_factory in V. split; [|split; [|split]].
  - intros L U. now apply reload_bounded.
  - now apply reload_eq.
  - intros x. apply reload_contains.
  - destruct r as [[] []], f; try congruence; split; reflexivity.
Qed.
Print Assumptions C24_range.
(** Unbounded ranges do not survive: pickled and loaded, "at most 3" is not equal to itself and claims to have a lower bound (the sentinel is compared by identity). *)
Theorem C24_unbounded_refuted : forall (f : nat), f <> 0 -> exists r : range Z,
  factory_made r /\ prange_eq (in_process r) (reload f r) = false /\
  has_lower_bound r = false /\ p_has_lower_bound (reload f r) = true.
Proof.
  intros f F. exists (MkRange BelowAll (AboveV 3%Z)). split; [now apply (fm_at_most 3%Z)|].
  destruct f; [congruence|]. repeat split.
Qed.
Print Assumptions C24_unbounded_refuted.
(** C24: range sets, exactly: loading raises ValueError when the set has several ranges of which
    one is unbounded below; otherwise it lists the reloaded ranges in order, and equals the
    original exactly when every range is bounded. *)
Theorem C24_range_set : forall (T : Type) (O : TotalOrder T) (ops : list (op T)) (f : nat),
  history ops -> f <> 0 ->
  let rs := as_ranges (run ops) in
  ((2 <= length rs /\ exists m, In m rs /\ has_lower_bound m = false) -> reload_set f (run ops) = Raise ValueError) /\
  (~ (2 <= length rs /\ exists m, In m rs /\ has_lower_bound m = false) ->
     exists l, reload_set f (run ops) = Ok l /\ l = map (reload f) rs /\
       (pset_eq (map in_process rs) l = true <->
        forall m, In m rs -> has_lower_bound m = true /\ has_upper_bound m = true)).
Proof.
  intros T O ops f H F rs0. destruct (history_state ops H) as (rs & E0 & E & _ & W & _).
  unfold rs0 in *. rewrite E. rewrite E0. clear E E0 rs0. rewrite (reload_set_spec f rs F W).
  assert (FST : forall r q l m, rs = r :: q :: l -> In m rs -> has_lower_bound m = false -> has_lower_bound r = false).
  { intros r q l m -> [<-|Hm] L; [assumption|]. destruct (wf_keys r (q :: l) m W Hm) as [N _].
    unfold has_lower_bound in L. destruct (lower m); simpl in L; congruence. }
  pose proof (pset_eq_reload f rs F W) as PE.
  split.
  - intros (L & m & Hm & Lm). destruct rs as [|r [|q l]]; simpl in L; try lia.
    rewrite (FST r q l m eq_refl Hm Lm). reflexivity.
  - intros N. destruct rs as [|r [|q l]].
    + eexists. split; [reflexivity|]. split; [reflexivity|]. exact PE.
    + eexists. split; [reflexivity|]. split; [reflexivity|]. exact PE.
    + destruct (has_lower_bound r) eqn:L.
      * eexists. split; [reflexivity|]. split; [reflexivity|]. exact PE.
      * exfalso. apply N. split; [simpl; lia|]. exists r. simpl. auto.
Qed.
Print Assumptions C24_range_set.
(** C24: at the level of values, [__setstate__(__getstate__())] restores the set. *)
Theorem C24_state_round_trip : forall (T : Type) (O : TotalOrder T) (ops : list (op T)),
  history ops -> setstate (getstate (run ops)) = run ops.
Proof.
  intros T O ops H. destruct (history_state ops H) as (rs & -> & _ & _ & W & _).
  now apply setstate_getstate.
Qed.
Print Assumptions C24_state_round_trip.
Example C24_witness : exists ops : list (op Z), history ops /\
  reload_set 7 (run ops) = Ok [in_process (MkRange (BelowV 1%Z) (AboveV 3%Z)); in_process (MkRange (AboveV 5%Z) (BelowV 8%Z))].
Proof.
  exists [Add (MkRange (AboveV 5%Z) (BelowV 8%Z)); Add (MkRange (BelowV 1%Z) (AboveV 3%Z))].
  split; [hist|reflexivity].
Qed.
