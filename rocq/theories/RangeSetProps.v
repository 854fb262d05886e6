(** * Property theorems about RangeSet (range.py).  C11-C22.

    A history is any list of mutator calls on a set created empty; [run ops] is the set
    after it, [as_ranges (run ops)] what [as_ranges()] then lists, [live ops []] the ranges
    added since the last [clear].  Every range argument comes from a public factory. *)
From Coq Require Import Sorted.
From Verif Require Import Prelude Order Range RangeFacts RangeProofs SortedDict RangeSet
  RangeSetOps RangeSetProofs RangeSetProofs2.

(** ** Specification vocabulary *)
Definition history {T} {O : TotalOrder T} (ops : list (op T)) : Prop :=
  Forall (fun o => Forall factory_made (op_ranges o)) ops.
(** [a] ends before [b] starts, with a gap: they do not even touch, the smallest range
    around both goes from [a]'s lower to [b]'s upper bound, and members are ordered. *)
Definition lies_before {T} {O : TotalOrder T} (a b : range T) : Prop :=
  is_connected a b = false /\
  span a b = Ok (MkRange (lower a) (upper b)) /\
  (forall x y, contains a x = true -> contains b y = true -> lt x y).
(** A family of non-empty, pairwise disconnected ranges in increasing order. *)
Definition range_family {T} {O : TotalOrder T} (l : list (range T)) : Prop :=
  Forall (fun r => factory_made r /\ is_empty r = false) l /\ StronglySorted lies_before l.

Section Bridge.
Context {T : Type} {O : TotalOrder T}.
Notation rng := (range T).
Lemma history_ok ops : history ops -> ok_ops (T:=T) ops.
Proof.
  unfold history, ok_ops. apply Forall_impl. intros o. apply Forall_impl. intros r. apply valid_factory.
Qed.
Lemma before_lies (a b : rng) : good a -> good b -> before a b -> lies_before a b.
Proof.
  intros [Va Ga] [Vb Gb] B. unfold before in B. split; [cord|]. split.
  - rewrite span_eq by assumption. unfold cmin, cmax. f_equal.
    f_equal.
    + destruct (cltb (lower a) (lower b)) eqn:E1, (cltb (lower b) (lower a)) eqn:E2; cord.
    + destruct (cltb (upper a) (upper b)) eqn:E1, (cltb (upper b) (upper a)) eqn:E2; cord.
  - intros x y Hx Hy. apply contains_spec in Hx, Hy. apply lt_cut2. cord.
Qed.
Lemma lies_before_cut (a b : rng) : good a -> good b -> lies_before a b -> before a b.
Proof.
  intros [Va Ga] [Vb Gb] (C & S & _). unfold before. rewrite span_eq in S by assumption.
  inversion S as [[S1 S2]]. unfold cmin, cmax in *.
  destruct (cltb (lower a) (lower b)) eqn:E1; destruct (cltb (lower b) (lower a)) eqn:E2; cord.
Qed.
Lemma ss_impl_in {A} (P Q : A -> A -> Prop) l :
  (forall a b, In a l -> In b l -> P a b -> Q a b) -> StronglySorted P l -> StronglySorted Q l.
Proof.
  induction l as [|x l IH]; intros H S; constructor; inversion S; subst.
  - apply IH; auto. intros; apply H; simpl; auto.
  - rewrite Forall_forall in *. intros y Hy. apply H; simpl; auto.
Qed.
Lemma family_wf (l : list rng) : range_family l <-> WF l.
Proof.
  unfold range_family, WF. split; intros [F S].
  - assert (G : Forall good l).
    { revert F. apply Forall_impl. intros r [H E]. apply good_nonempty. split; [now apply valid_factory|assumption]. }
    split; [assumption|]. revert S. apply ss_impl_in. rewrite Forall_forall in G.
    intros a b Ha Hb. apply lies_before_cut; auto.
  - split.
    + revert F. apply Forall_impl. intros r G. apply good_nonempty in G. destruct G.
      split; [now apply valid_factory|assumption].
    + revert S. apply ss_impl_in. rewrite Forall_forall in F.
      intros a b Ha Hb. apply before_lies; auto.
Qed.
Lemma history_state ops : history ops -> exists rs, run ops = map kv rs /\ as_ranges (run ops) = rs /\
  Least (live ops []) rs /\ WF rs /\ (forall x, member rs x <-> exists r, In r (live ops []) /\ contains r x = true).
Proof.
  intros H. destruct (run_state ops (history_ok ops H)) as (rs & E & L & M).
  exists rs. rewrite E, as_ranges_kv. destruct L as (W & L). unfold Least. auto.
Qed.
End Bridge.

(** A concrete history used for all the non-vacuity examples:
    [1,3], (5,8), clear, (0,2], [2,4), (6,9), [20, +inf), empty [7,7). *)
Definition demo : list (op Z) :=
  [ Add (MkRange (BelowV 1%Z) (AboveV 3%Z)); Add (MkRange (AboveV 5%Z) (BelowV 8%Z)); Clear;
    Add (MkRange (AboveV 0%Z) (AboveV 2%Z));
    AddAll [MkRange (AboveV 6%Z) (BelowV 9%Z); MkRange (BelowV 2%Z) (BelowV 4%Z)];
    Remove (MkRange (AboveV 0%Z) (AboveV 2%Z));
    Add (MkRange (BelowV 20%Z) AboveAll); Add (MkRange (BelowV 7%Z) (BelowV 7%Z)) ].
(** Proves concrete instances of [history]. *)
Ltac hist := unfold history; repeat (first [apply Forall_nil | apply Forall_cons | progress cbn [op_ranges]]);
  match goal with
  | |- factory_made (MkRange (BelowV ?a) (AboveV ?b)) => now apply (fm_closed a b)
  | |- factory_made (MkRange (AboveV ?a) (BelowV ?b)) => now apply (fm_open a b)
  | |- factory_made (MkRange (AboveV ?a) (AboveV ?b)) => now apply (fm_open_closed a b)
  | |- factory_made (MkRange (BelowV ?a) (BelowV ?b)) => now apply (fm_closed_open a b)
  | |- factory_made (MkRange (BelowV ?a) AboveAll) => now apply (fm_at_least a)
  end.
Example demo_history : history demo.
Proof. unfold demo. hist. Qed.
Example demo_ranges : as_ranges (run demo) =
  [MkRange (AboveV 0%Z) (BelowV 4%Z); MkRange (AboveV 6%Z) (BelowV 9%Z); MkRange (BelowV 20%Z) AboveAll].
Proof. reflexivity. Qed.

(** C11: representation invariant, for every history. *)
Theorem C11_invariant : forall (T : Type) (O : TotalOrder T) (ops : list (op T)),
  history ops -> range_family (as_ranges (run ops)).
Proof.
  intros T O ops H. destruct (history_state ops H) as (rs & _ & -> & _ & W & _). now apply family_wf.
Qed.
Print Assumptions C11_invariant.
(** C11: no mutator but remove/remove_all ever raises, whatever the history. *)
Theorem C11_calls : forall (T : Type) (O : TotalOrder T) (ops : list (op T)) (o : op T),
  history (ops ++ [o]) ->
  snd (step (run ops) o) =
  match o with
  | Remove _ | RemoveAll (_ :: _) => Some NotImplementedError
  | _ => None
  end.
Proof.
  intros T O ops o H. apply Forall_app in H. destruct H as [H1 H2].
  inversion H2 as [|? ? Ho _]; subst.
  pose proof (run_state ops (history_ok ops H1)) as S.
  assert (V : Forall valid (op_ranges o)).
  { revert Ho. apply Forall_impl. intros r. apply valid_factory. }
  pose proof (step_no_raise _ _ o S V) as N. destruct o as [r|rs| |r|[|r rs]]; try exact N; now rewrite N.
Qed.
Print Assumptions C11_calls.
Example C11_witness : history demo /\ length (as_ranges (run demo)) = 3%nat.
Proof. split; [exact demo_history|reflexivity]. Qed.

(** C12: membership is the union of the live ranges. *)
Theorem C12_membership : forall (T : Type) (O : TotalOrder T) (ops : list (op T)) (x : T),
  history ops ->
  exists b, rs_contains (run ops) x = Ok b /\
    (b = true <-> exists r, In r (live ops []) /\ contains r x = true).
Proof.
  intros T O ops x H. destruct (history_state ops H) as (rs & -> & _ & _ & W & M).
  exists (existsb (fun m => contains m x) rs). split; [now apply rs_contains_q|].
  rewrite existsb_exists. apply M.
Qed.
Print Assumptions C12_membership.
Example C12_witness : rs_contains (run demo) 3%Z = Ok true /\ rs_contains (run demo) 5%Z = Ok false.
Proof. split; reflexivity. Qed.

(** C13: histories with the same live non-empty ranges (as sets) give equal sets - both for
    [==] and for what [as_ranges()] lists. *)
Theorem C13_canonical : forall (T : Type) (O : TotalOrder T) (ops1 ops2 : list (op T)),
  history ops1 -> history ops2 ->
  (forall r, is_empty r = false -> (In r (live ops1 []) <-> In r (live ops2 []))) ->
  rs_eq (run ops1) (run ops2) = true /\ as_ranges (run ops1) = as_ranges (run ops2).
Proof.
  intros T O o1 o2 H1 H2 E.
  destruct (history_state o1 H1) as (rs1 & -> & -> & L1 & W1 & _).
  destruct (history_state o2 H2) as (rs2 & -> & -> & L2 & W2 & _).
  assert (rs1 = rs2) by (eapply least_unique; eauto). subst. split; [|reflexivity].
  now apply rs_eq_q.
Qed.
Print Assumptions C13_canonical.
(** [==] on range sets holds exactly when [as_ranges()] lists the same ranges. *)
Theorem C13_equality : forall (T : Type) (O : TotalOrder T) (ops1 ops2 : list (op T)),
  history ops1 -> history ops2 ->
  (rs_eq (run ops1) (run ops2) = true <-> as_ranges (run ops1) = as_ranges (run ops2)).
Proof.
  intros T O o1 o2 H1 H2.
  destruct (history_state o1 H1) as (rs1 & -> & -> & L1 & W1 & _).
  destruct (history_state o2 H2) as (rs2 & -> & -> & L2 & W2 & _). now apply rs_eq_q.
Qed.
Print Assumptions C13_equality.
Example C13_witness :
  let p := [Add (MkRange (BelowV 20%Z) AboveAll); Add (MkRange (BelowV 2%Z) (BelowV 4%Z));
            Add (MkRange (AboveV 6%Z) (BelowV 9%Z)); Add (MkRange (AboveV 6%Z) (BelowV 9%Z));
            Add (MkRange (AboveV 0%Z) (AboveV 2%Z))] in
  history p /\ (forall r, is_empty r = false -> (In r (live demo []) <-> In r (live p []))) /\ p <> demo.
Proof.
  split; [|split; [|discriminate]].
  - hist.
  - intros r E. simpl. split; intros H; repeat destruct H as [<-|H]; auto 10; try contradiction; discriminate E.
Qed.

(** C14: [add] is the least coalescing update. *)
Theorem C14_add : forall (T : Type) (O : TotalOrder T) (ops : list (op T)) (r : range T),
  history ops -> factory_made r ->
  exists d', add (run ops) r = Ok d' /\
    (is_empty r = true -> as_ranges d' = as_ranges (run ops)) /\
    (is_empty r = false ->
       (* the new set is a family that encloses r and all the old ranges *)
       range_family (as_ranges d') /\
       (forall q, In q (r :: as_ranges (run ops)) ->
          exists m, In m (as_ranges d') /\ encloses m q = true) /\
       (* every family doing so encloses the new ranges *)
       (forall fam, range_family fam ->
          (forall q, In q (r :: as_ranges (run ops)) -> exists m, In m fam /\ encloses m q = true) ->
          forall q, In q (as_ranges d') -> exists m, In m fam /\ encloses m q = true) /\
       (* explicitly: the ranges not connected to r are kept, the others and r become
          their common span *)
       exists h, create_spanning (r :: filter (is_connected r) (as_ranges (run ops))) = Ok h /\
         (forall q, In q (as_ranges d') <->
            q = h \/ (In q (as_ranges (run ops)) /\ is_connected r q = false))).
Proof.
  intros T O ops r H V. apply valid_factory in V.
  destruct (history_state ops H) as (rs & -> & E & _ & W & _). rewrite as_ranges_kv. clear E.
  destruct (add_spec rs r W V) as (rs' & A & W' & R). exists (map kv rs').
  rewrite as_ranges_kv. split; [exact A|]. split.
  - intros E. unfold add_result in R. rewrite E in R. exact R.
  - intros E. pose proof R as R0. unfold add_result in R. rewrite E in R. destruct R as (h & Hh & Er).
    assert (G : good r) by (apply good_nonempty; auto).
    assert (L : Least (r :: rs) rs').
    { apply add_least with rs; auto. split; [assumption|]. split.
      - intros q Hq _. exists q. split; [assumption|apply encloses_refl].
      - intros fam _ C q Hq. apply C; [assumption|]. apply good_nonempty. now apply (wf_good _ _ W). }
    destruct L as (_ & L1 & L2).
    assert (NE : forall q, In q (r :: rs) -> is_empty q = false).
    { intros q [<-|Hq]; [assumption|]. apply good_nonempty. now apply (wf_good _ _ W). }
    split; [now apply family_wf|]. split; [|split].
    + intros q Hq. apply L1; auto.
    + intros fam F C q Hq. apply family_wf in F.
      apply (L2 fam F (fun q' Hq' _ => C q' Hq') q Hq).
    + exists h. split; [assumption|]. intros q. eapply add_result_in; eauto.
Qed.
Print Assumptions C14_add.
Example C14_witness : exists r d', factory_made r /\ is_empty r = false /\ add (run demo) r = Ok d' /\
  as_ranges d' = [MkRange (AboveV 0%Z) (BelowV 9%Z); MkRange (BelowV 20%Z) AboveAll].
Proof.
  exists (MkRange (BelowV 3%Z) (AboveV 6%Z)). eexists. split; [now apply (fm_closed 3%Z 6%Z)|].
  split; [reflexivity|]. split; reflexivity.
Qed.

(** C14: ranges that are empty or lie within ranges of the set change nothing, in whatever order and how often they are added.  In particular add_all of the set itself, although
    it lists the ranges while the set is being updated. *)
Theorem C14_absorbed : forall (T : Type) (O : TotalOrder T) (ops : list (op T)) (l : list (range T)),
  history ops -> (forall r, In r l -> factory_made r /\ (is_empty r = true \/ exists m, In m (as_ranges (run ops)) /\ encloses m r = true)) ->
  add_all (run ops) l = Ok (run ops).
Proof.
  intros T O ops l H Hl. destruct (history_state ops H) as (rs & E1 & E & _ & W & _). rewrite E in Hl. rewrite E1. clear E E1 ops H.
  unfold add_all. induction l as [|r l IH]; [reflexivity|]. cbn [foldM]. destruct (Hl r (or_introl eq_refl)) as (V & Hr). apply valid_factory in V.
  destruct (add_spec rs r W V) as (rs' & A & W' & R). rewrite A. cbn [bind]. enough (rs' = rs) as -> by (apply IH; intros q Hq; apply Hl; now right). clear IH A Hl.
  destruct (is_empty r) eqn:Er; [unfold add_result in R; rewrite Er in R; exact R|]. destruct Hr as [Hr|Hr]; [discriminate|].
  assert (L : Least (r :: rs) rs').
  { apply add_least with rs; auto. split; [assumption|]. split.
    - intros q Hq _. exists q. split; [assumption|apply encloses_refl].
    - intros fam _ C q Hq. apply C; [assumption|]. apply good_nonempty. now apply (wf_good _ _ W). }
  destruct L as (_ & L1 & L2). apply covers_antisym; auto.
  - intros m Hm. apply (L2 rs W); [|assumption]. intros q [<-|Hq] _; [exact Hr|]. exists q. split; [assumption|apply encloses_refl].
  - intros m Hm. apply L1; [now right|]. apply good_nonempty. now apply (wf_good _ _ W).
Qed.
Print Assumptions C14_absorbed.
Example C14_absorbed_witness : let l := as_ranges (run demo) ++ [MkRange (BelowV 7%Z) (AboveV 8%Z); MkRange (BelowV 5%Z) (BelowV 5%Z)] ++ as_ranges (run demo) in
  add_all (run demo) l = Ok (run demo) /\ forall r, In r l -> factory_made r /\ (is_empty r = true \/ exists m, In m (as_ranges (run demo)) /\ encloses m r = true).
Proof.
  split; [reflexivity|]. intros r I. rewrite demo_ranges in *. cbn [app In] in I. repeat destruct I as [<-|I]; try contradiction;
    (split; [first [now apply (fm_open 0%Z 4%Z)|now apply (fm_open 6%Z 9%Z)|now apply (fm_at_least 20%Z)|now apply (fm_closed 7%Z 8%Z)|now apply (fm_closed_open 5%Z 5%Z)]|]);
    first [left; reflexivity|right; eexists; split; [left; reflexivity|reflexivity]|right; eexists; split; [right; left; reflexivity|reflexivity]|right; eexists; split; [right; right; left; reflexivity|reflexivity]].
Qed.

(** C15: range_containing is the unique member containing x. *)
Theorem C15_range_containing : forall (T : Type) (O : TotalOrder T) (ops : list (op T)) (x : T),
  history ops ->
  exists o b, range_containing (run ops) x = Ok o /\ rs_contains (run ops) x = Ok b /\
    (forall m, o = Some m <-> In m (as_ranges (run ops)) /\ contains m x = true) /\
    (b = true <-> o <> None) /\
    (forall m m', In m (as_ranges (run ops)) -> contains m x = true ->
       In m' (as_ranges (run ops)) -> contains m' x = true -> m = m').
Proof.
  intros T O ops x H. destruct (history_state ops H) as (rs & -> & E & _ & W & _). rewrite as_ranges_kv. clear E.
  assert (U : forall m m', In m rs -> contains m x = true -> In m' rs -> contains m' x = true -> m = m').
  { intros m m' Hm Cm Hm' Cm'. apply (wf_connected_eq rs); auto. apply contains_spec in Cm, Cm'. cord. }
  exists (find (fun m => contains m x) rs), (existsb (fun m => contains m x) rs).
  split; [now apply contains_q|]. split; [now apply rs_contains_q|]. split; [|split].
  - intros m. split.
    + intros F. apply find_some in F. assumption.
    + intros [Hm Cm]. apply find_unique; auto; intros q Hq Cq; exact (U q m Hq Cq Hm Cm).
  - rewrite existsb_find. destruct (find _ rs); split; congruence.
  - exact U.
Qed.
Print Assumptions C15_range_containing.
Example C15_witness : range_containing (run demo) 3%Z = Ok (Some (MkRange (AboveV 0%Z) (BelowV 4%Z))) /\
  range_containing (run demo) 4%Z = Ok None.
Proof. split; reflexivity. Qed.

(** C16: enclosure queries. *)
Theorem C16_enclosing : forall (T : Type) (O : TotalOrder T) (ops : list (op T)) (q : range T),
  history ops -> factory_made q ->
  exists o b, range_enclosing_range (run ops) q = Ok o /\ rs_encloses (run ops) q = Ok b /\
    (forall m, o = Some m <-> In m (as_ranges (run ops)) /\ encloses m q = true) /\
    (b = true <-> exists m, In m (as_ranges (run ops)) /\ encloses m q = true).
Proof.
  intros T O ops q H V. apply valid_factory in V.
  destruct (history_state ops H) as (rs & -> & E & _ & W & _). rewrite as_ranges_kv. clear E.
  exists (find (fun m => encloses m q) rs), (existsb (fun m => encloses m q) rs).
  split; [now apply enclosing_q|]. split; [now apply rs_encloses_q|]. split.
  - intros m. split.
    + intros F. apply find_some in F. assumption.
    + intros [Hm Cm]. apply find_unique; auto; intros q' Hq' Eq';
      apply (wf_connected_eq rs); auto; exact (enclosed_connected _ _ _ V Eq' Cm).
  - apply existsb_exists.
Qed.
Print Assumptions C16_enclosing.
Theorem C16_encloses_all : forall (T : Type) (O : TotalOrder T) (ops : list (op T)) (qs : list (range T)),
  history ops -> Forall factory_made qs ->
  exists b, rs_encloses_all (run ops) qs = Ok b /\
    (b = true <-> forall q, In q qs -> exists m, In m (as_ranges (run ops)) /\ encloses m q = true).
Proof.
  intros T O ops qs H V.
  assert (V' : Forall valid qs) by (revert V; apply Forall_impl; intros r; apply valid_factory).
  destruct (history_state ops H) as (rs & -> & E & _ & W & _). rewrite as_ranges_kv. clear E.
  eexists. split; [now apply rs_encloses_all_q|]. rewrite forallb_forall.
  split; intros F q Hq; specialize (F q Hq); now apply existsb_exists.
Qed.
Print Assumptions C16_encloses_all.
Example C16_witness : rs_encloses (run demo) (MkRange (BelowV 1%Z) (BelowV 4%Z)) = Ok true /\
  rs_encloses (run demo) (MkRange (BelowV 3%Z) (BelowV 8%Z)) = Ok false.
Proof. split; reflexivity. Qed.

(** C17: ranges_enclosed_by lists exactly the enclosed members, in the order of as_ranges(). *)
Theorem C17_ranges_enclosed_by : forall (T : Type) (O : TotalOrder T) (ops : list (op T)) (q : range T),
  history ops ->
  ranges_enclosed_by (run ops) q = Ok (filter (encloses q) (as_ranges (run ops))).
Proof.
  intros T O ops q H. destruct (history_state ops H) as (rs & -> & E & _ & W & _). rewrite as_ranges_kv.
  now apply enclosed_by_q.
Qed.
Print Assumptions C17_ranges_enclosed_by.
Example C17_witness : ranges_enclosed_by (run demo) (MkRange (BelowV 5%Z) AboveAll) =
  Ok [MkRange (AboveV 6%Z) (BelowV 9%Z); MkRange (BelowV 20%Z) AboveAll].
Proof. reflexivity. Qed.

(** C18: ranges_overlapping lists exactly the members connected to the query, in order. *)
Theorem C18_ranges_overlapping : forall (T : Type) (O : TotalOrder T) (ops : list (op T)) (q : range T),
  history ops -> factory_made q ->
  ranges_overlapping (run ops) q = Ok (filter (is_connected q) (as_ranges (run ops))).
Proof.
  intros T O ops q H V. apply valid_factory in V.
  destruct (history_state ops H) as (rs & -> & E & _ & W & _). rewrite as_ranges_kv.
  now apply overlapping_q.
Qed.
Print Assumptions C18_ranges_overlapping.
(** Hence a member sharing no value with the query may be listed: [4, 5] touches (0, 4). *)
Theorem C18_shares_value_refuted : exists (ops : list (op Z)) (q m : range Z),
  history ops /\ factory_made q /\ ranges_overlapping (run ops) q = Ok [m] /\
  forall x, contains q x = true -> contains m x = true -> False.
Proof.
  exists demo, (MkRange (BelowV 4%Z) (AboveV 5%Z)), (MkRange (AboveV 0%Z) (BelowV 4%Z)).
  split; [exact demo_history|]. split; [now apply (fm_closed 4%Z 5%Z)|]. split; [reflexivity|].
  intros x Hx Hm. apply contains_spec in Hx, Hm. cbn [lower upper] in *. cord.
Qed.
Print Assumptions C18_shares_value_refuted.
Example C18_witness : ranges_overlapping (run demo) (MkRange (BelowV 3%Z) (AboveV 7%Z)) =
  Ok [MkRange (AboveV 0%Z) (BelowV 4%Z); MkRange (AboveV 6%Z) (BelowV 9%Z)].
Proof. reflexivity. Qed.

(** C19: intersects holds exactly when some non-empty range is enclosed by the query and a
    member, i.e. when some intersection with a member is non-empty. *)
Theorem C19_intersects : forall (T : Type) (O : TotalOrder T) (ops : list (op T)) (q : range T),
  history ops -> factory_made q ->
  exists b, rs_intersects (run ops) q = Ok b /\
    (b = true <-> exists m c, In m (as_ranges (run ops)) /\ factory_made c /\
       is_empty c = false /\ encloses m c = true /\ encloses q c = true) /\
    (b = true <-> exists m i, In m (as_ranges (run ops)) /\ intersection m q = Ok i /\
       is_empty i = false).
Proof.
  intros T O ops q H V. apply valid_factory in V.
  destruct (history_state ops H) as (rs & -> & E & _ & W & _). rewrite as_ranges_kv. clear E.
  exists (existsb (fun m => meets m q) rs). split; [now apply rs_intersects_q|].
  assert (B1 : existsb (fun m => meets m q) rs = true <-> exists m c, In m rs /\ factory_made c /\
       is_empty c = false /\ encloses m c = true /\ encloses q c = true).
  { rewrite existsb_exists. split.
    - intros (m & Hm & M). apply meets_spec in M; [|apply (wf_good _ _ W Hm)|assumption].
      destruct M as (c & Vc & Ec & C1 & C2). exists m, c. rewrite <- valid_factory. auto.
    - intros (m & c & Hm & Vc & Ec & C1 & C2). exists m. split; [assumption|].
      apply meets_spec; [apply (wf_good _ _ W Hm)|assumption|]. exists c. rewrite valid_factory. auto. }
  split; [exact B1|]. rewrite B1. split.
  - intros (m & c & Hm & Vc & Ec & C1 & C2). assert (Vm : valid m) by apply (wf_good _ _ W Hm).
    assert (C : is_connected m q = true).
    { apply connected_common; auto. exists c. apply valid_factory in Vc. auto. }
    pose proof (intersection_eq m q Vm V) as I. rewrite C in I.
    exists m. eexists. split; [assumption|]. split; [exact I|].
    destruct (intersection_meet m q _ Vm V I) as (_ & _ & _ & G).
    specialize (G c C1 C2). set (i := MkRange _ _) in *. clearbody i.
    apply valid_factory, valid_spec in Vc. destruct (is_empty i) eqn:Ei; [|reflexivity].
    exfalso. apply is_empty_iff in Ei.
    assert (lower c = upper c) by (clear - G Ei Vc; cut_norm; rewrite Ei in *; cord).
    apply is_empty_iff in H0. congruence.
  - intros (m & i & Hm & I & Ei). assert (Vm : valid m) by apply (wf_good _ _ W Hm).
    destruct (intersection_meet m q _ Vm V I) as (_ & C1 & C2 & _).
    exists m, i. rewrite <- valid_factory. split; [assumption|].
    split; [exact (intersection_valid m q i Vm V I)|]. auto.
Qed.
Print Assumptions C19_intersects.
Example C19_witness : rs_intersects (run demo) (MkRange (BelowV 3%Z) (AboveV 5%Z)) = Ok true /\
  rs_intersects (run demo) (MkRange (BelowV 4%Z) (AboveV 6%Z)) = Ok false.
Proof. split; reflexivity. Qed.

(** C20: the nearest-range queries, as documented: the last member not enclosed in
    (x, +inf), the first member not enclosed in (-inf, x). *)
Theorem C20_nearest : forall (T : Type) (O : TotalOrder T) (ops : list (op T)) (x : T) (above below : range T),
  history ops -> greater_than x = Ok above -> less_than x = Ok below ->
  rightmost_containing_or_below (run ops) x =
    Ok (hd_error (rev (filter (fun m => negb (encloses above m)) (as_ranges (run ops))))) /\
  leftmost_containing_or_above (run ops) x =
    Ok (hd_error (filter (fun m => negb (encloses below m)) (as_ranges (run ops)))).
Proof.
  intros T O ops x a b H Ha Hb. destruct (history_state ops H) as (rs & -> & E & _ & W & _).
  rewrite as_ranges_kv. split; [now apply rightmost_q|now apply leftmost_q].
Qed.
Print Assumptions C20_nearest.
(** If a member contains x both queries return it. *)
Theorem C20_containing : forall (T : Type) (O : TotalOrder T) (ops : list (op T)) (x : T) (m : range T),
  history ops -> In m (as_ranges (run ops)) -> contains m x = true ->
  rightmost_containing_or_below (run ops) x = Ok (Some m) /\
  leftmost_containing_or_above (run ops) x = Ok (Some m).
Proof.
  intros T O ops x m H Hm C. destruct (history_state ops H) as (rs & E0 & E & _ & W & _).
  rewrite E in Hm. clear E. rewrite E0. clear E0 H.
  assert (Ha : greater_than x = Ok (MkRange (AboveV x) AboveAll)) by reflexivity.
  assert (Hb : less_than x = Ok (MkRange BelowAll (BelowV x))) by reflexivity.
  rewrite (rightmost_q rs x _ W Ha), (leftmost_q rs x _ W Hb).
  apply contains_spec in C. pose proof (below_above x) as BA.
  apply in_split in Hm. destruct Hm as (l1 & l2 & ->).
  assert (B1 : forall q, In q l1 -> before q m).
  { intros q Hq. destruct W as [_ S]. apply ss_app in S. destruct S as (_ & _ & S). apply S; simpl; auto. }
  assert (B2 : forall q, In q l2 -> before m q).
  { intros q Hq. destruct W as [_ S]. apply ss_app in S. destruct S as (_ & S & _).
    inversion S as [|? ? _ F]; subst. rewrite Forall_forall in F. auto. }
  assert (NB : forall c, cltb (BelowV x) c = true -> cltb c (AboveV x) = false).
  { intros c Hc. destruct (cltb c (AboveV x)) eqn:E; [|reflexivity]. exfalso. eapply no_between; eauto. }
  split; f_equal; rewrite filter_app; cbn [filter].
  - rewrite (filter_nil _ l2).
    + replace (negb (encloses _ m)) with true; [rewrite rev_app_distr; reflexivity|].
      clear NB B1 B2. symmetry. cut_norm. cbn [lower upper]. cord.
    + intros q Hq. specialize (B2 q Hq). unfold before in B2.
      assert (cltb (lower q) (AboveV x) = false) by (apply NB; clear NB B1; cord).
      assert (cltb (lower q) AboveAll = true).
      { assert (In q (l1 ++ m :: l2)) by (apply in_or_app; simpl; auto).
        destruct (wf_good _ _ W H0) as [V _]. apply valid_spec in V. tauto. }
      cut_norm. cbn [lower upper]. rewrite H, above_all_greatest. reflexivity.
  - rewrite (filter_nil _ l1).
    + replace (negb (encloses _ m)) with true; [reflexivity|].
      clear NB B1 B2. symmetry. cut_norm. cbn [lower upper]. cord.
    + intros q Hq. specialize (B1 q Hq). unfold before in B1.
      clear NB B2. cut_norm. cbn [lower upper]. rewrite below_all_least. simpl. cord.
Qed.
Print Assumptions C20_containing.
Example C20_witness :
  rightmost_containing_or_below (run demo) 5%Z = Ok (Some (MkRange (AboveV 0%Z) (BelowV 4%Z))) /\
  leftmost_containing_or_above (run demo) 5%Z = Ok (Some (MkRange (AboveV 6%Z) (BelowV 9%Z))) /\
  rightmost_containing_or_below (run demo) 0%Z = Ok None.
Proof. repeat split; reflexivity. Qed.

(** C20: a member is not enclosed in (x, +inf) exactly if it contains x or lies wholly below x, i.e. in (-inf, x); and dually; never two of the three. *)
Theorem C20_meaning : forall (T : Type) (O : TotalOrder T) (ops : list (op T)) (x : T) (above below m : range T),
  history ops -> greater_than x = Ok above -> less_than x = Ok below -> In m (as_ranges (run ops)) ->
  (encloses above m = false <-> contains m x = true \/ encloses below m = true) /\
  (encloses below m = false <-> contains m x = true \/ encloses above m = true) /\
  (contains m x = true -> encloses above m = false /\ encloses below m = false).
Proof.
  intros T O ops x a b m H Ha Hb Hm. destruct (history_state ops H) as (rs & _ & E & _ & W & _).
  rewrite E in Hm. destruct (wf_good _ _ W Hm) as [V NE]. apply valid_spec in V. clear W E H Hm.
  change (Ok (MkRange (AboveV x) AboveAll) = Ok a) in Ha. change (Ok (MkRange BelowAll (BelowV x)) = Ok b) in Hb.
  injection Ha as <-. injection Hb as <-. rewrite contains_spec. cut_norm. cbn [lower upper]. rewrite below_all_least, above_all_greatest.
  pose proof (below_above x) as BA.
  assert (NB : forall c, cltb (BelowV x) c = true -> cltb c (AboveV x) = false).
  { intros c Hc. destruct (cltb c (AboveV x)) eqn:E; [|reflexivity]. exfalso. eapply no_between; eauto. }
  pose proof (NB (lower m)) as NL. pose proof (NB (upper m)) as NU. clear NB.
  destruct (cltb (lower m) (AboveV x)) eqn:E1; destruct (cltb (BelowV x) (upper m)) eqn:E2; destruct (cltb (BelowV x) (lower m)) eqn:E3; simpl; try (clear NL NU; exfalso; cord);
    intuition (try congruence); exfalso; eauto using cltb_trans.
Qed.
Print Assumptions C20_meaning.
Example C20_meaning_witness : In (MkRange (AboveV 0%Z) (BelowV 4%Z)) (as_ranges (run demo)) /\
  encloses (MkRange (AboveV 5%Z) AboveAll) (MkRange (AboveV 0%Z) (BelowV 4%Z)) = false /\ encloses (MkRange BelowAll (BelowV 5%Z)) (MkRange (AboveV 0%Z) (BelowV 4%Z)) = true.
Proof. repeat split; vm_compute; auto. Qed.

(** C21: span. *)
Theorem C21_span : forall (T : Type) (O : TotalOrder T) (ops : list (op T)),
  history ops ->
  (as_ranges (run ops) = [] -> rs_span (run ops) = Raise ValueError) /\
  (as_ranges (run ops) <> [] ->
     exists s, rs_span (run ops) = Ok s /\
       (forall m, In m (as_ranges (run ops)) -> encloses s m = true) /\
       (forall s', (forall m, In m (as_ranges (run ops)) -> encloses s' m = true) ->
          encloses s' s = true)).
Proof.
  intros T O ops H. destruct (history_state ops H) as (rs & -> & E & _ & W & _).
  rewrite as_ranges_kv. clear E. rewrite (rs_span_q rs W). split.
  - intros ->. reflexivity.
  - intros NE. assert (V : Forall valid rs).
    { apply Forall_forall. intros q Hq. apply (wf_good _ _ W Hq). }
    destruct (create_spanning_spec rs NE V) as (c & -> & _ & C1 & C2). exists c. auto.
Qed.
Print Assumptions C21_span.
Example C21_witness : as_ranges (run demo) <> [] /\ rs_span (run demo) = Ok (MkRange (AboveV 0%Z) AboveAll).
Proof. split; [discriminate|reflexivity]. Qed.
