(** * Property theorems about ImmutableRangeMap (range.py).  C25, C26. *)
From Coq Require Import Sorted.
From Verif Require Import Prelude Order Range RangeFacts RangeProofs SortedDict RangeSet
  RangeSetOps RangeSetProofs RangeSetProofs2 RangeSetProps RangeMap RangeMapProofs.

(** [last_value pairs k]: the value of the last pair with key [k], scanning from the end. *)

(** C25: construction succeeds exactly on non-empty, pairwise disconnected keys (a repeated key
    counts once, its last value wins); otherwise ValueError. *)
Theorem C25_construction : forall (T : Type) (O : TotalOrder T) (V : Type) (pairs : list (range T * V)),
  Forall factory_made (map fst pairs) ->
  let keys := map fst pairs in
  let fine := (forall k, In k keys -> is_empty k = false) /\
              (forall a b, In a keys -> In b keys -> a <> b -> is_connected a b = false) in
  (fine -> exists m, immutablerangemap pairs = Ok m /\ NoDup (map fst (as_dict m)) /\
     forall k v, In (k, v) (as_dict m) <-> last_value pairs k = Some v) /\
  (~ fine -> immutablerangemap pairs = Raise ValueError).
Proof.
  intros T O V pairs F keys fine.
  assert (Fv : Forall valid (map fst pairs)) by (revert F; apply Forall_impl; intros; now apply valid_factory).
  destruct (make_spec pairs Fv) as [(G & rs & E & W & K)|(G & E)].
  - split; [|intros N; exfalso; apply N; exact G].
    intros _. eexists. split; [exact E|]. unfold as_dict. cbn [rng_to_val].
    split; [apply idict_of_nodup|].
    intros k v. pose proof (idict_of_get pairs k) as Gk. pose proof (idict_of_nodup pairs) as N.
    assert (X : forall d, NoDup (map fst d) -> (In (k, v) d <-> idict_get d k = Ok v)).
    { induction d as [|[k' v'] d IH]; intros Nd; simpl; [split; [contradiction|discriminate]|].
      simpl in Nd. inversion Nd; subst. destruct (range_eq k' k) eqn:Er.
      - apply range_eq_iff in Er. subst k'. split.
        + intros [H|H]; [congruence|]. exfalso. apply H1. apply in_map_iff. exists (k, v). auto.
        + intros H. left. congruence.
      - rewrite <- IH by assumption. split; [intros [H|H]; [|assumption]|auto].
        inversion H; subst. rewrite (proj2 (range_eq_iff k k) eq_refl) in Er. discriminate. }
    rewrite (X _ N), Gk. destruct (last_value pairs k); split; congruence.
  - split; [|intros _; exact E]. intros H. exfalso. apply G. exact H.
Qed.
Print Assumptions C25_construction.
Definition demo_map : list (range Z * nat) :=
  [(MkRange (AboveV 1%Z) (AboveV 10%Z), 3); (MkRange (AboveV 12%Z) (BelowV 15%Z), 17);
   (MkRange (AboveV 1%Z) (AboveV 10%Z), 36); (MkRange (BelowV 20%Z) AboveAll, 17)]%nat.
Example C25_witness : exists m, immutablerangemap demo_map = Ok m /\ length (as_dict m) = 3 /\
  immutablerangemap [(MkRange (BelowV 1%Z) (BelowV 3%Z), 0); (MkRange (BelowV 3%Z) (BelowV 4%Z), 1)] = Raise ValueError /\
  immutablerangemap [(MkRange (BelowV 1%Z) (BelowV 1%Z), 0)] = Raise ValueError.
Proof. eexists. split; [reflexivity|]. repeat split. Qed.

(** C26: point lookup. *)
Theorem C26_getitem : forall (T : Type) (O : TotalOrder T) (V : Type) (pairs : list (range T * V)) m (x : T),
  Forall factory_made (map fst pairs) -> immutablerangemap pairs = Ok m ->
  exists o b, rm_getitem m x = Ok o /\ rm_contains m x = Ok b /\
    (forall v, o = Some v <-> exists k, contains k x = true /\ last_value pairs k = Some v) /\
    (b = true <-> exists k, In k (map fst pairs) /\ contains k x = true).
Proof.
  intros T O V pairs m x F E.
  assert (Fv : Forall valid (map fst pairs)) by (revert F; apply Forall_impl; intros; now apply valid_factory).
  destruct (make_spec pairs Fv) as [(G & rs & E' & W & K)|(G & E')]; [|congruence].
  rewrite E in E'. inversion E'; subst m; clear E E'.
  unfold rm_getitem, rm_contains, value_of. cbn [range_set rng_to_val].
  rewrite contains_q, rs_contains_q by assumption. cbn [bind].
  assert (LV : forall k v, last_value pairs k = Some v -> In k (map fst pairs)).
  { intros k v. unfold last_value. destruct (find _ (rev pairs)) as [p|] eqn:Ef; [|discriminate].
    intros _. apply find_some in Ef. destruct Ef as [Hp Ep]. apply range_eq_iff in Ep. subst.
    apply in_map. now apply in_rev. }
  assert (U : forall k k', In k rs -> contains k x = true -> In k' rs -> contains k' x = true -> k = k').
  { intros k k' Hm Cm Hm' Cm'. apply (wf_connected_eq rs); auto. apply contains_spec in Cm, Cm'. cord. }
  destruct (find (fun k => contains k x) rs) as [k|] eqn:Ek.
  - pose proof Ek as Ek'. apply find_some in Ek. destruct Ek as [Hk Ck].
    rewrite idict_of_get. destruct (last_value_in pairs k (proj1 (K k) Hk)) as (v & Ev). rewrite Ev. cbn [bind].
    exists (Some v). eexists. split; [reflexivity|]. split; [reflexivity|]. split.
    + intros v'. split.
      * intros H. inversion H; subst. eauto.
      * intros (k' & Ck' & Ev'). assert (k' = k) by (apply U; auto; apply K; eauto). congruence.
    + rewrite existsb_exists. split; intros (k' & Hk' & Ck'); exists k'; split; auto; now apply K.
  - exists None. eexists. split; [reflexivity|]. split; [reflexivity|]. split.
    + intros v'. split; [discriminate|]. intros (k' & Ck' & Ev').
      rewrite (find_none _ _ Ek k') in Ck'; [discriminate|]. apply K. eauto.
    + rewrite existsb_exists. split; intros (k' & Hk' & Ck'); exists k'; split; auto; now apply K.
Qed.
Print Assumptions C26_getitem.

(** C26: nearest lookups: the value of the greatest key not enclosed in (x, +inf), resp. of the
    least key not enclosed in (-inf, x); None exactly when there is no such key. *)
Theorem C26_nearest : forall (T : Type) (O : TotalOrder T) (V : Type) (pairs : list (range T * V)) m (x : T) above below,
  Forall factory_made (map fst pairs) -> immutablerangemap pairs = Ok m ->
  greater_than x = Ok above -> less_than x = Ok below ->
  (exists o, rm_rightmost m x = Ok o /\
     match o with
     | Some v => exists k, In k (map fst pairs) /\ last_value pairs k = Some v /\ encloses above k = false /\
         (forall k', In k' (map fst pairs) -> encloses above k' = false -> k' = k \/ lies_before k' k)
     | None => forall k, In k (map fst pairs) -> encloses above k = true
     end) /\
  (exists o, rm_leftmost m x = Ok o /\
     match o with
     | Some v => exists k, In k (map fst pairs) /\ last_value pairs k = Some v /\ encloses below k = false /\
         (forall k', In k' (map fst pairs) -> encloses below k' = false -> k' = k \/ lies_before k k')
     | None => forall k, In k (map fst pairs) -> encloses below k = true
     end).
Proof.
  intros T O V pairs m x above below F E Ha Hb.
  assert (Fv : Forall valid (map fst pairs)) by (revert F; apply Forall_impl; intros; now apply valid_factory).
  destruct (make_spec pairs Fv) as [(G & rs & E' & W & K)|(G & E')]; [|congruence].
  rewrite E in E'. inversion E'; subst m; clear E E'.
  unfold rm_rightmost, rm_leftmost, value_of. cbn [range_set rng_to_val].
  rewrite (rightmost_q rs x above W Ha), (leftmost_q rs x below W Hb). cbn [bind].
  assert (Gd : forall k, In k rs -> good k) by (intros k; apply wf_good; assumption).
  split.
  - set (P := fun k => negb (encloses above k)).
    destruct (rev (filter P rs)) as [|k l] eqn:Er; simpl.
    + exists None. split; [reflexivity|]. intros k Hk. apply K in Hk.
      destruct (encloses above k) eqn:Ek; [reflexivity|]. exfalso.
      assert (H : In k (rev (filter P rs))) by (rewrite <- in_rev; apply filter_In; unfold P; rewrite Ek; auto).
      rewrite Er in H. contradiction.
    + assert (Hk : In k (filter P rs)) by (apply in_rev; rewrite Er; simpl; auto).
      apply filter_In in Hk. destruct Hk as [Hk Pk]. unfold P in Pk. apply negb_true_iff in Pk.
      rewrite idict_of_get. destruct (last_value_in pairs k (proj1 (K k) Hk)) as (v & Ev). rewrite Ev. cbn [bind].
      exists (Some v). split; [reflexivity|]. exists k. split; [now apply K|]. split; [assumption|]. split; [assumption|].
      intros k' Hk' Pk'. apply K in Hk'.
      assert (H : In k' (rev (filter P rs))) by (rewrite <- in_rev; apply filter_In; unfold P; rewrite Pk'; auto).
      rewrite Er in H. destruct H as [->|H]; [auto|right].
      apply before_lies; auto.
      assert (S : StronglySorted before (filter P rs)) by (apply ss_filter, W).
      apply (f_equal (@rev _)) in Er. rewrite rev_involutive in Er. simpl in Er. rewrite Er in S.
      apply ss_app in S. apply (proj2 (proj2 S)); [now apply in_rev in H|simpl; auto].
  - set (P := fun k => negb (encloses below k)).
    destruct (filter P rs) as [|k l] eqn:Er; simpl.
    + exists None. split; [reflexivity|]. intros k Hk. apply K in Hk.
      destruct (encloses below k) eqn:Ek; [reflexivity|]. exfalso.
      assert (H : In k (filter P rs)) by (apply filter_In; unfold P; rewrite Ek; auto).
      rewrite Er in H. contradiction.
    + assert (Hk : In k (filter P rs)) by (rewrite Er; simpl; auto).
      apply filter_In in Hk. destruct Hk as [Hk Pk]. unfold P in Pk. apply negb_true_iff in Pk.
      rewrite idict_of_get. destruct (last_value_in pairs k (proj1 (K k) Hk)) as (v & Ev). rewrite Ev. cbn [bind].
      exists (Some v). split; [reflexivity|]. exists k. split; [now apply K|]. split; [assumption|]. split; [assumption|].
      intros k' Hk' Pk'. apply K in Hk'.
      assert (H : In k' (filter P rs)) by (apply filter_In; unfold P; rewrite Pk'; auto).
      rewrite Er in H. destruct H as [->|H]; [auto|right].
      apply before_lies; auto.
      assert (S : StronglySorted before (filter P rs)) by (apply ss_filter, W). rewrite Er in S.
      inversion S as [|? ? _ FA]; subst. rewrite Forall_forall in FA. auto.
Qed.
Print Assumptions C26_nearest.

(** C26: get_enclosed_by is the set of the values whose key is enclosed by the query. *)
Theorem C26_get_enclosed_by : forall (T : Type) (O : TotalOrder T) (V : Type) (veq : V -> V -> bool)
    (pairs : list (range T * V)) m (q : range T),
  (forall a b, veq a b = true <-> a = b) ->
  Forall factory_made (map fst pairs) -> immutablerangemap pairs = Ok m ->
  exists vs, rm_enclosed_by veq m q = Ok vs /\ NoDup vs /\
    forall v, In v vs <-> exists k, encloses q k = true /\ last_value pairs k = Some v.
Proof.
  intros T O V veq pairs m q VE F E.
  assert (Fv : Forall valid (map fst pairs)) by (revert F; apply Forall_impl; intros; now apply valid_factory).
  destruct (make_spec pairs Fv) as [(G & rs & E' & W & K)|(G & E')]; [|congruence].
  rewrite E in E'. inversion E'; subst m; clear E E'.
  unfold rm_enclosed_by. cbn [range_set rng_to_val]. rewrite enclosed_by_q by assumption. cbn [bind].
  assert (LV : forall k v, last_value pairs k = Some v -> In k (map fst pairs)).
  { intros k v. unfold last_value. destruct (find _ (rev pairs)) as [p|] eqn:Ef; [|discriminate].
    intros _. apply find_some in Ef. destruct Ef as [Hp Ep]. apply range_eq_iff in Ep. subst.
    apply in_map. now apply in_rev. }
  destruct pairs as [|p0 pairs0] eqn:Ep.
  { assert (rs = []) by (destruct rs as [|a rs]; [reflexivity|]; exfalso; apply (proj1 (K a) (or_introl eq_refl))).
    subst. exists []. split; [reflexivity|]. split; [constructor|]. intros v. split; [contradiction|].
    intros (k & _ & H). discriminate. }
  rewrite <- Ep in *.
  set (f := fun k => match last_value pairs k with Some v => v | None => snd p0 end).
  destruct (enclosed_fold veq VE (MkMap (idict_of pairs) (map kv rs)) (filter (encloses q) rs) [] f) as (vs & E & N & M).
  - intros k Hk. apply filter_In in Hk. cbn [rng_to_val]. rewrite idict_of_get. unfold f.
    destruct (last_value_in pairs k (proj1 (K k) (proj1 Hk))) as (v & ->). reflexivity.
  - constructor.
  - exists vs. split; [exact E|]. split; [assumption|]. intros v. rewrite M. split.
    + intros [[]|(k & Hk & Ev)]. apply filter_In in Hk. destruct Hk as [Hk Ek]. exists k. split; [assumption|].
      unfold f in Ev. destruct (last_value_in pairs k (proj1 (K k) Hk)) as (v' & E'). rewrite E' in *. congruence.
    + intros (k & Ek & Ev). right. exists k. split.
      * apply filter_In. split; [apply K; eauto|assumption].
      * unfold f. now rewrite Ev.
Qed.
Print Assumptions C26_get_enclosed_by.

(** C26: rebuilding a map from its items ([__reduce__]) gives back the same map. *)
Theorem C26_reduce_round_trip : forall (T : Type) (O : TotalOrder T) (V : Type) (pairs : list (range T * V)) m,
  Forall factory_made (map fst pairs) -> immutablerangemap pairs = Ok m ->
  immutablerangemap (reduce_state m) = Ok m.
Proof.
  intros T O V pairs m F E. pose proof E as E0.
  unfold immutablerangemap in E. apply bind_ok in E. destruct E as (rs & B & E).
  destruct (length (idict_of pairs) =? rs_len rs)%nat eqn:L; [|discriminate]. inversion E; subst m; clear E.
  assert (R : reduce_state (MkMap (idict_of pairs) rs) = idict_of pairs).
  { unfold reduce_state, rm_is_empty, rs_is_empty. cbn [range_set]. unfold as_dict. cbn [rng_to_val].
    destruct (length rs =? 0) eqn:Z; [|reflexivity]. apply Nat.eqb_eq in L, Z. unfold rs_len in L.
    destruct (idict_of pairs); [reflexivity|simpl in L; lia]. }
  rewrite R. unfold immutablerangemap. rewrite (idict_of_id _ (idict_of_nodup pairs)), B. cbn [bind].
  now rewrite L.
Qed.
Print Assumptions C26_reduce_round_trip.
Example C26_witness : exists m, immutablerangemap demo_map = Ok m /\
  rm_getitem m 10%Z = Ok (Some 36) /\ rm_getitem m 11%Z = Ok None /\
  rm_rightmost m 12%Z = Ok (Some 36) /\ rm_leftmost m 11%Z = Ok (Some 17) /\
  rm_enclosed_by Nat.eqb m (MkRange (BelowV 11%Z) AboveAll) = Ok [17].
Proof. eexists. split; [reflexivity|]. repeat split. Qed.
