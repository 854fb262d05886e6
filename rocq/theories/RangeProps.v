(** * Property theorems about Range (range.py).  C01-C10.

    [lt]/[le] are the endpoint order, [contains r x] is Python's [x in r],
    [denotes c P] says the call [c] returned a range whose members are exactly [P],
    [factory_made r] says [r] came from one of the nine public factories. *)
From Verif Require Import Prelude Order Range RangeFacts RangeProofs OrderQc.
From Coq Require Import QArith Qcanon.
Local Close Scope Q_scope. Local Close Scope Qc_scope.

(** C01: factories denote the advertised intervals and reject exactly the rest. *)
Theorem C01_factories : forall (T : Type) (O : TotalOrder T) (a b : T),
  (lt a b -> denotes (open_ a b) (fun x => lt a x /\ lt x b)) /\
  (le b a -> open_ a b = Raise ValueError) /\
  (le a b -> denotes (closed a b) (fun x => le a x /\ le x b)) /\
  (lt b a -> closed a b = Raise ValueError) /\
  (le a b -> denotes (closed_open a b) (fun x => le a x /\ lt x b)) /\
  (lt b a -> closed_open a b = Raise ValueError) /\
  (le a b -> denotes (open_closed a b) (fun x => lt a x /\ le x b)) /\
  (lt b a -> open_closed a b = Raise ValueError) /\
  denotes (less_than b) (fun x => lt x b) /\
  denotes (at_most b) (fun x => le x b) /\
  denotes (greater_than a) (fun x => lt a x) /\
  denotes (at_least a) (fun x => le a x) /\
  denotes all_ (fun _ : T => True).
Proof.
  intros T O a b.
  pose proof (open_spec a b) as H1. pose proof (closed_spec a b) as H2.
  pose proof (closed_open_spec a b) as H3. pose proof (open_closed_spec a b) as H4.
  destruct (half_spec b) as (H5 & H6 & _ & _ & H7).
  destruct (half_spec a) as (_ & _ & H8 & H9 & _).
  unfold lt at 1, le at 2. unfold lt at 4. unfold le at 3.
  repeat split; intros; auto; unfold lt, le in *;
    repeat match goal with H : ltb ?x ?y = _ , G : if ltb ?x ?y then _ else _ |- _ =>
      rewrite H in G end; assumption.
Qed.
Print Assumptions C01_factories.

(** C01: the bounds reported by a factory-made range are the arguments given. *)
Theorem C01_bounds : forall (T : Type) (O : TotalOrder T) (a b : T) (r : range T),
  (open_ a b = Ok r -> lower_endpoint r = Ok a /\ upper_endpoint r = Ok b /\
     lower_bound_type r = Ok BOpen /\ upper_bound_type r = Ok BOpen) /\
  (closed a b = Ok r -> lower_endpoint r = Ok a /\ upper_endpoint r = Ok b /\
     lower_bound_type r = Ok BClosed /\ upper_bound_type r = Ok BClosed) /\
  (closed_open a b = Ok r -> lower_endpoint r = Ok a /\ upper_endpoint r = Ok b /\
     lower_bound_type r = Ok BClosed /\ upper_bound_type r = Ok BOpen) /\
  (open_closed a b = Ok r -> lower_endpoint r = Ok a /\ upper_endpoint r = Ok b /\
     lower_bound_type r = Ok BOpen /\ upper_bound_type r = Ok BClosed) /\
  (less_than b = Ok r -> has_lower_bound r = false /\ lower_endpoint r = Raise ValueError /\ lower_bound_type r = Raise AssertionError /\
     upper_endpoint r = Ok b /\ upper_bound_type r = Ok BOpen) /\
  (at_most b = Ok r -> has_lower_bound r = false /\ lower_endpoint r = Raise ValueError /\ lower_bound_type r = Raise AssertionError /\
     upper_endpoint r = Ok b /\ upper_bound_type r = Ok BClosed) /\
  (greater_than a = Ok r -> has_upper_bound r = false /\ upper_endpoint r = Raise ValueError /\ upper_bound_type r = Raise AssertionError /\
     lower_endpoint r = Ok a /\ lower_bound_type r = Ok BOpen) /\
  (at_least a = Ok r -> has_upper_bound r = false /\ upper_endpoint r = Raise ValueError /\ upper_bound_type r = Raise AssertionError /\
     lower_endpoint r = Ok a /\ lower_bound_type r = Ok BClosed) /\
  (all_ = Ok r -> has_lower_bound r = false /\ has_upper_bound r = false /\ lower_endpoint r = Raise ValueError /\ upper_endpoint r = Raise ValueError /\
     lower_bound_type r = Raise AssertionError /\ upper_bound_type r = Raise AssertionError) /\
  (factory_made r -> (has_lower_bound r = true <-> exists x, lower_endpoint r = Ok x) /\ (has_upper_bound r = true <-> exists x, upper_endpoint r = Ok x) /\
     (has_lower_bound r = true <-> exists x, lower_bound_type r = Ok x) /\ (has_upper_bound r = true <-> exists x, upper_bound_type r = Ok x)).
Proof.
  intros T O a b r. repeat match goal with |- _ /\ _ => split end; try (intros H; apply mk_range_ok in H; destruct H as [-> _]; repeat split; fail).
  intros V. apply valid_factory in V. apply valid_spec in V. destruct r as [l u]. unfold has_lower_bound, has_upper_bound, lower_endpoint, upper_endpoint, lower_bound_type, upper_bound_type. cbn [lower upper] in *.
  destruct V as (_ & V1 & V2). destruct l, u; simpl in *; repeat split; intros X; try discriminate X; try discriminate V1; try discriminate V2; try (destruct X as (? & X); discriminate X); eauto.
Qed.
Print Assumptions C01_bounds.
Example C01_witness :
  denotes (open_ 1%Z 3%Z) (fun x => lt 1%Z x /\ lt x 3%Z) /\ open_ 3%Z 3%Z = Raise ValueError.
Proof.
  destruct (C01_factories Z _ 1%Z 3%Z) as (H & _). split; [now apply H|reflexivity].
Qed.

(** C02: emptiness. *)
Theorem C02_is_empty : forall (T : Type) (O : TotalOrder T) (r : range T),
  factory_made r ->
  (is_empty r = true <-> exists a, closed_open a a = Ok r \/ open_closed a a = Ok r) /\
  (is_empty r = true -> forall x, contains r x = false).
Proof.
  intros T O r V. apply valid_factory in V. split; [exact (empty_shape r V)|].
  intros E x. exact (empty_no_member r x E).
Qed.
Print Assumptions C02_is_empty.
Theorem C02_dense_nonempty : forall (T : Type) (O : TotalOrder T) (r : range T),
  dense (T:=T) -> no_least (T:=T) -> no_greatest (T:=T) -> inhabited T ->
  factory_made r -> (is_empty r = false <-> exists x, contains r x = true).
Proof.
  intros T O r D NL NG I V. apply valid_factory in V. split.
  - exact (nonempty_member r D NL NG I V).
  - intros [x H]. destruct (is_empty r) eqn:E; [|reflexivity].
    rewrite (empty_no_member r x E) in H. discriminate.
Qed.
Print Assumptions C02_dense_nonempty.
(** On a discrete type the converse fails: (3,4) over the integers. *)
Theorem C02_discrete_refuted : exists r : range Z,
  factory_made r /\ is_empty r = false /\ forall x, contains r x = false.
Proof.
  exists (MkRange (AboveV 3%Z) (BelowV 4%Z)). split; [now apply (fm_open 3%Z 4%Z)|].
  split; [reflexivity|]. intros x. unfold contains. change (is_less_than _ x) with (3 <? x)%Z at 1. change (is_less_than _ x) with ((4 <? x) || (4 =? x))%Z. lia.
Qed.
Print Assumptions C02_discrete_refuted.
Example C02_witness_dense :
  dense (T:=Qc) /\ no_least (T:=Qc) /\ no_greatest (T:=Qc) /\ inhabited Qc.
Proof.
  repeat split.
  - intros x y H. apply Qc_ltb_lt in H. destruct (Qc_mid x y H) as (z & A & B).
    exists z. split; now apply Qc_ltb_lt.
  - intros x. destruct (Qc_below x) as (z & A). exists z. now apply Qc_ltb_lt.
  - intros x. destruct (Qc_above x) as (z & A). exists z. now apply Qc_ltb_lt.
  - exact (Q2Qc 0).
Qed.
Example C02_witness : exists r : range Z, factory_made r /\ is_empty r = true.
Proof. exists (MkRange (BelowV 5%Z) (BelowV 5%Z)). split; [now apply (fm_closed_open 5%Z 5%Z)|reflexivity]. Qed.

(** C03: encloses is a partial order implying member inclusion. *)
Theorem C03_encloses_partial_order : forall (T : Type) (O : TotalOrder T) (a b c : range T),
  encloses a a = true /\
  (encloses a b = true -> encloses b c = true -> encloses a c = true) /\
  (encloses a b = true -> encloses b a = true -> a = b) /\
  (encloses a b = true -> forall x, contains b x = true -> contains a x = true).
Proof.
  intros T O a b c. repeat split.
  - exact (encloses_refl a).
  - exact (encloses_trans a b c).
  - exact (encloses_antisym a b).
  - intros H x. exact (encloses_members a b x H).
Qed.
Print Assumptions C03_encloses_partial_order.
Theorem C03_encloses_exact_on_dense : forall (T : Type) (O : TotalOrder T) (a b : range T),
  dense (T:=T) -> no_least (T:=T) -> no_greatest (T:=T) -> inhabited T ->
  factory_made a -> factory_made b -> is_empty b = false ->
  (encloses a b = true <-> forall x, contains b x = true -> contains a x = true).
Proof.
  intros T O a b D NL NG I Va Vb E. apply valid_factory in Va, Vb. split.
  - intros H x. exact (encloses_members a b x H).
  - exact (members_encloses a b D NL NG I Va Vb E).
Qed.
Print Assumptions C03_encloses_exact_on_dense.
Example C03_witness : exists a b : range Z, factory_made a /\ factory_made b /\
  is_empty b = false /\ encloses a b = true /\ a <> b.
Proof.
  exists (MkRange (BelowV 1%Z) (AboveV 9%Z)), (MkRange (AboveV 2%Z) (BelowV 9%Z)).
  repeat split; [now apply (fm_closed 1%Z 9%Z)|now apply (fm_open 2%Z 9%Z)|discriminate].
Qed.

(** C04: intersection is the meet (and raises exactly when not connected). *)
Theorem C04_intersection : forall (T : Type) (O : TotalOrder T) (a b : range T),
  factory_made a -> factory_made b ->
  (is_connected a b = false -> intersection a b = Raise ValueError) /\
  (is_connected a b = true -> exists c, intersection a b = Ok c /\ factory_made c /\
     (forall x, contains c x = true <-> contains a x = true /\ contains b x = true) /\
     encloses a c = true /\ encloses b c = true /\
     (forall d, encloses a d = true -> encloses b d = true -> encloses c d = true)).
Proof.
  intros T O a b Va Vb. apply valid_factory in Va, Vb. split.
  - apply intersection_raises; assumption.
  - intros C. destruct (intersection a b) as [c|e] eqn:E.
    + exists c. destruct (intersection_meet a b c Va Vb E) as (H1 & H2 & H3 & H4).
      repeat split; auto.
      * apply valid_factory. exact (intersection_valid a b c Va Vb E).
      * rewrite H1 in H. now apply andb_prop in H.
      * rewrite H1 in H. now apply andb_prop in H.
      * intros [A B]. now rewrite H1, A, B.
    + rewrite (intersection_eq a b Va Vb), C in E. discriminate.
Qed.
Print Assumptions C04_intersection.
(** The documented laws: commutative, idempotent, identity [all], associative
    (both groupings give the same range, or both raise). *)
Theorem C04_intersection_laws : forall (T : Type) (O : TotalOrder T) (a b c u : range T),
  factory_made a -> factory_made b -> factory_made c -> all_ = Ok u ->
  intersection a b = intersection b a /\
  intersection a a = Ok a /\
  intersection a u = Ok a /\
  (let* ab := intersection a b in intersection ab c) =
  (let* bc := intersection b c in intersection a bc).
Proof.
  intros T O a b c u Va Vb Vc Hu. apply valid_factory in Va, Vb, Vc.
  inversion Hu; subst. split; [|split; [|split]].
  - exact (intersection_comm a b Va Vb).
  - exact (intersection_idem a Va).
  - exact (intersection_all a Va).
  - exact (intersection_assoc a b c Va Vb Vc).
Qed.
Print Assumptions C04_intersection_laws.
Example C04_witness : exists a b : range Z, factory_made a /\ factory_made b /\
  is_connected a b = true /\ intersection a b = open_closed 3%Z 5%Z /\
  is_connected a (MkRange (BelowV 6%Z) (BelowV 7%Z)) = false.
Proof.
  exists (MkRange (BelowV 1%Z) (AboveV 5%Z)), (MkRange (AboveV 3%Z) (BelowV 7%Z)).
  repeat split; [now apply (fm_closed 1%Z 5%Z)|now apply (fm_open 3%Z 7%Z)].
Qed.

(** C05: is_connected. *)
Theorem C05_is_connected : forall (T : Type) (O : TotalOrder T) (a b : range T),
  factory_made a -> factory_made b ->
  is_connected a a = true /\ is_connected a b = is_connected b a /\
  (is_connected a b = true <->
     exists c, factory_made c /\ encloses a c = true /\ encloses b c = true).
Proof.
  intros T O a b Va Vb. apply valid_factory in Va, Vb.
  split; [exact (connected_refl a Va)|]. split; [exact (connected_sym a b)|].
  rewrite (connected_common a b Va Vb).
  split; intros (c & H & G); exists c; (split; [now apply valid_factory|exact G]).
Qed.
Print Assumptions C05_is_connected.
(** ... and it is not transitive (documented). *)
Example C05_not_transitive : exists a b c : range Z,
  is_connected a b = true /\ is_connected b c = true /\ is_connected a c = false.
Proof.
  exists (MkRange (BelowV 1%Z) (BelowV 2%Z)), (MkRange (BelowV 2%Z) (BelowV 5%Z)),
         (MkRange (BelowV 5%Z) (BelowV 7%Z)). repeat split.
Qed.
Example C05_witness : exists a b : range Z, factory_made a /\ factory_made b /\
  is_connected a b = true /\ is_connected a (MkRange (BelowV 6%Z) (BelowV 7%Z)) = false.
Proof.
  exists (MkRange (BelowV 1%Z) (BelowV 4%Z)), (MkRange (BelowV 4%Z) (BelowV 6%Z)).
  repeat split; [now apply (fm_closed_open 1%Z 4%Z)|now apply (fm_closed_open 4%Z 6%Z)].
Qed.

(** C06: span is the join, and the union of connected ranges. *)
Theorem C06_span : forall (T : Type) (O : TotalOrder T) (a b c : range T),
  factory_made a -> factory_made b -> factory_made c ->
  (exists s, span a b = Ok s /\ factory_made s /\ encloses s a = true /\ encloses s b = true /\
     (forall d, encloses d a = true -> encloses d b = true -> encloses d s = true) /\
     (is_connected a b = true ->
        forall x, contains s x = true <-> contains a x = true \/ contains b x = true)) /\
  span a b = span b a /\ span a a = Ok a /\
  (let* ab := span a b in span ab c) = (let* bc := span b c in span a bc).
Proof.
  intros T O a b c Va Vb Vc. apply valid_factory in Va, Vb, Vc. split.
  - destruct (span_join a b Va Vb) as (s & H1 & H2 & H3 & H4 & H5). exists s.
    split; [exact H1|]. split; [now apply valid_factory|].
    split; [exact H3|]. split; [exact H4|]. split; [exact H5|].
    intros C x. rewrite (span_union a b s x Va Vb C H1). apply orb_true_iff.
  - split; [exact (span_comm a b Va Vb)|]. split; [exact (span_idem a Va)|].
    exact (span_assoc a b c Va Vb Vc).
Qed.
Print Assumptions C06_span.
Example C06_witness : exists a b : range Z, factory_made a /\ factory_made b /\
  span a b = closed_open 1%Z 7%Z /\ span a b <> Ok a /\ span a b <> Ok b.
Proof.
  exists (MkRange (BelowV 1%Z) (AboveV 3%Z)), (MkRange (AboveV 5%Z) (BelowV 7%Z)).
  repeat split; [now apply (fm_closed 1%Z 3%Z)|now apply (fm_open 5%Z 7%Z)|discriminate|discriminate].
Qed.

(** C07: create_spanning. *)
Theorem C07_create_spanning : forall (T : Type) (O : TotalOrder T) (rs : list (range T)),
  Forall factory_made rs ->
  (rs = [] -> create_spanning rs = Raise ValueError) /\
  (rs <> [] -> exists c, create_spanning rs = Ok c /\ factory_made c /\
     (forall r, In r rs -> encloses c r = true) /\
     (forall d, (forall r, In r rs -> encloses d r = true) -> encloses d c = true)).
Proof.
  intros T O rs V. split; [intros ->; reflexivity|]. intros Hne.
  assert (V' : Forall valid rs)
    by (eapply Forall_impl; [|exact V]; intros r Hr; now apply valid_factory).
  destruct (create_spanning_spec rs Hne V') as (c & H1 & H2 & H3 & H4).
  exists c. split; [exact H1|]. split; [now apply valid_factory|]. auto.
Qed.
Print Assumptions C07_create_spanning.
Example C07_witness : create_spanning
  [MkRange (BelowV 4%Z) (AboveV 6%Z); MkRange (AboveV 1%Z) (BelowV 2%Z); MkRange (BelowV 5%Z) AboveAll]
  = greater_than 1%Z.
Proof. reflexivity. Qed.

(** C08: Range.intersects is connectedness, i.e. it is true exactly when intersection()
    does not raise - also when that intersection is empty. *)
Theorem C08_intersects : forall (T : Type) (O : TotalOrder T) (a b : range T),
  factory_made a -> factory_made b ->
  (intersects a b = true <-> exists c, intersection a b = Ok c) /\
  intersects a b = is_connected a b.
Proof.
  intros T O a b Va Vb. apply valid_factory in Va, Vb.
  pose proof (intersects_connected a b Va Vb) as E. split; [|exact E].
  rewrite E, (intersection_eq a b Va Vb). destruct (is_connected a b).
  - split; [eauto|reflexivity].
  - split; [discriminate|intros [c H]; discriminate].
Qed.
Print Assumptions C08_intersects.
(** The stronger reading "some value is in both" is false, even on dense types:
    [2,4) and [4,6) "intersect". *)
Theorem C08_common_member_refuted : exists a b : range Qc,
  factory_made a /\ factory_made b /\ intersects a b = true /\
  forall x, ~ (contains a x = true /\ contains b x = true).
Proof.
  exists (MkRange (BelowV (Q2Qc (2#1)%Q)) (BelowV (Q2Qc (4#1)%Q))),
         (MkRange (BelowV (Q2Qc (4#1)%Q)) (BelowV (Q2Qc (6#1)%Q))).
  split; [now apply (fm_closed_open (Q2Qc (2#1)%Q) (Q2Qc (4#1)%Q))|].
  split; [now apply (fm_closed_open (Q2Qc (4#1)%Q) (Q2Qc (6#1)%Q))|].
  split; [reflexivity|]. intros x [H G].
  apply contains_spec in H, G. cbn [lower upper] in *. destruct H as [_ H], G as [G _]. congruence.
Qed.
Print Assumptions C08_common_member_refuted.

(** C09: equality is sameness of bounds and is respected by hash. *)
Theorem C09_eq_hash : forall (T : Type) (O : TotalOrder T) (a b : range T) (h : T -> Z),
  (range_eq a b = true <-> lower a = lower b /\ upper a = upper b) /\
  (range_eq a b = true -> range_hash h a = range_hash h b) /\
  (range_eq a b = true -> forall x, contains a x = contains b x).
Proof.
  intros T O a b h. rewrite range_eq_iff. repeat split.
  - now subst.
  - now subst.
  - destruct a, b; simpl; intros [-> ->]; reflexivity.
  - now intros ->.
  - now intros ->.
Qed.
Print Assumptions C09_eq_hash.
Theorem C09_eq_equivalence : forall (T : Type) (O : TotalOrder T) (a b c : range T),
  range_eq a a = true /\ range_eq a b = range_eq b a /\
  (range_eq a b = true -> range_eq b c = true -> range_eq a c = true).
Proof.
  intros T O a b c. split; [now apply range_eq_iff|]. split.
  - destruct (range_eq a b) eqn:E.
    + apply range_eq_iff in E. subst. symmetry. now apply range_eq_iff.
    + destruct (range_eq b a) eqn:F; [|reflexivity].
      apply range_eq_iff in F. subst. rewrite (proj2 (range_eq_iff a a) eq_refl) in E. discriminate.
  - rewrite !range_eq_iff. congruence.
Qed.
Print Assumptions C09_eq_equivalence.
Example C09_witness : range_eq (MkRange (BelowV 1%Z) (AboveV 2%Z)) (MkRange (BelowV 1%Z) (AboveV 2%Z)) = true
  /\ range_eq (MkRange (BelowV 1%Z) (AboveV 2%Z)) (MkRange (BelowV 1%Z) (BelowV 2%Z)) = false.
Proof. split; reflexivity. Qed.

(** C10: ranges are convex. *)
Theorem C10_convex : forall (T : Type) (O : TotalOrder T) (r : range T) (x y z : T),
  contains r x = true -> contains r z = true -> le x y -> le y z -> contains r y = true.
Proof. intros T O r x y z. exact (convex r x y z). Qed.
Print Assumptions C10_convex.
Example C10_witness : exists r : range Z, factory_made r /\
  contains r 1%Z = true /\ contains r 9%Z = true /\ le 1%Z 5%Z /\ le 5%Z 9%Z.
Proof. exists (MkRange (BelowV 1%Z) (AboveV 9%Z)). repeat split. now apply (fm_closed 1%Z 9%Z). Qed.
