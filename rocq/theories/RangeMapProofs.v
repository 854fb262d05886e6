(** * Proofs about ImmutableRangeMap *)
From Coq Require Import Sorted.
From Verif Require Import Prelude Order Range RangeFacts RangeProofs SortedDict RangeSet
  RangeSetOps RangeSetProofs RangeSetProofs2 RangeMap.

Section Proofs.
Context {T : Type} {O : TotalOrder T} {V : Type}.
Notation rng := (range T).

(** ** Counting *)
Lemma filter3 (rs : list rng) r : WF rs -> good r ->
  length (filter (lbelow r) rs) + length (filter (labove r) rs) + length (filter (is_connected r) rs) = length rs.
Proof.
  intros W [Vr G]. apply valid_spec in Vr.
  assert (P : forall q, In q rs -> is_connected r q = negb (lbelow r q) && negb (labove r q)) by (apply partition_wf; [assumption|cord]).
  assert (X : forall q, In q rs -> lbelow r q = true -> labove r q = false).
  { intros q Hq. unfold lbelow, labove. destruct (wf_good _ _ W Hq) as [_ Gq]. intros. cord. }
  clear W. induction rs as [|q rs IH]; [reflexivity|]. simpl.
  assert (IH' := IH (fun q' H' => P q' (or_intror H')) (fun q' H' => X q' (or_intror H'))).
  specialize (P q (or_introl eq_refl)). specialize (X q (or_introl eq_refl)).
  destruct (lbelow r q), (labove r q), (is_connected r q); simpl in *; try congruence; try lia;
  exfalso; specialize (X eq_refl); discriminate.
Qed.

Definition disjoint_keys (ks : list rng) : Prop :=
  Forall (fun k => is_empty k = false) ks /\ ForallOrdPairs (fun a b => is_connected a b = false) ks.

Lemma build_count ks rs : WF rs -> Forall valid ks ->
  exists rs', foldM add ks (map kv rs) = Ok (map kv rs') /\ WF rs' /\
    length rs' <= length rs + length ks /\
    (length rs' = length rs + length ks <->
       disjoint_keys ks /\ forall k q, In k ks -> In q rs -> is_connected k q = false) /\
    (length rs' = length rs + length ks -> forall q, In q rs' <-> In q rs \/ In q ks).
Proof.
  revert rs. induction ks as [|k ks IH]; intros rs W F.
  - exists rs. simpl. split; [reflexivity|]. split; [assumption|]. split; [lia|].
    split; [|intros _ q; tauto].
    split; [intros _|lia]. split; [split; constructor|contradiction].
  - inversion F as [|? ? Vk Fk]; subst. destruct (add_spec rs k W Vk) as (r1 & A & W1 & R1).
    destruct (IH r1 W1 Fk) as (rs' & B & W' & LE & IFF & MEM).
    exists rs'. cbn [foldM]. rewrite A. cbn [bind]. split; [exact B|]. split; [exact W'|].
    unfold add_result in R1. destruct (is_empty k) eqn:Ek.
    + subst r1. simpl length. split; [lia|]. split.
      * split; [lia|]. intros [[D _] _]. inversion D; congruence.
      * lia.
    + destruct R1 as (h & Hh & E1).
      assert (Gk : good k) by (apply good_nonempty; auto).
      pose proof (filter3 rs k W Gk) as F3.
      assert (L1 : length r1 = S (length (filter (lbelow k) rs) + length (filter (labove k) rs))).
      { rewrite E1, app_length. simpl. lia. }
      assert (ALL : length (filter (is_connected k) rs) = 0 <-> forall q, In q rs -> is_connected k q = false).
      { clear - O. induction rs as [|a rs IH]; simpl; [split; [contradiction|reflexivity]|].
        destruct (is_connected k a) eqn:E; simpl.
        - split; [lia|]. intros H. rewrite (H a) in E by auto. discriminate.
        - rewrite IH. split; intros H q; [intros [<-|Hq]; auto|auto]. }
      assert (IN1 : (forall q, In q rs -> is_connected k q = false) -> forall q, In q r1 <-> In q rs \/ q = k).
      { intros D q. rewrite (add_result_in rs k r1 h q W Gk Hh E1).
        assert (h = k).
        { rewrite filter_nil in Hh by assumption. unfold create_spanning in Hh. simpl in Hh.
          apply mk_range_ok in Hh. destruct Hh as [-> _]. now destruct k. }
        subst h. split; [intros [->|[? _]]; auto|intros [Hq| ->]; auto]. }
      cbn [length]. split; [lia|]. split.
      * split.
        -- intros Eq. assert (D : forall q, In q rs -> is_connected k q = false) by (apply ALL; lia).
           assert (Eq1 : length rs' = length r1 + length ks) by lia.
           apply IFF in Eq1. destruct Eq1 as [[D1 D2] D3]. split; [split|].
           ++ constructor; assumption.
           ++ constructor; [|assumption]. apply Forall_forall. intros b Hb.
              rewrite connected_sym. apply D3; [assumption|]. apply IN1; auto.
           ++ intros k' q [<-|Hk'] Hq; [auto|]. apply D3; [assumption|]. apply IN1; auto.
        -- intros [[D1 D2] D3]. apply Forall_inv_tail in D1. inversion D2 as [|a0 l0 P Q Ea]; subst a0 l0.
           assert (D : forall q, In q rs -> is_connected k q = false) by (intros; apply D3; simpl; auto).
           assert (Eq1 : length rs' = length r1 + length ks).
           { apply IFF. split; [split; assumption|]. intros k' q Hk' Hq. apply (IN1 D) in Hq.
             destruct Hq as [Hq| ->]; [apply D3; simpl; auto|].
             rewrite connected_sym. rewrite Forall_forall in P. auto. }
           apply ALL in D. lia.
      * intros Eq q. assert (D : forall q, In q rs -> is_connected k q = false) by (apply ALL; lia).
        rewrite (MEM ltac:(lia)), (IN1 D). simpl. split; intros H; intuition congruence.
Qed.

(** ** The dictionary *)
Notation keys d := (map (@fst rng V) d).
(** last value given for a key *)
Definition last_value (pairs : list (rng * V)) (k : rng) : option V :=
  match find (fun p => range_eq (fst p) k) (rev pairs) with Some p => Some (snd p) | None => None end.

Lemma idict_set_keys d k (v : V) q : In q (keys (idict_set d k v)) <-> In q (keys d) \/ q = k.
Proof.
  induction d as [|[k' v'] d IH]; simpl; [intuition congruence|].
  destruct (range_eq k' k) eqn:E; simpl.
  - apply range_eq_iff in E. subst. intuition congruence.
  - rewrite IH. tauto.
Qed.
Lemma idict_set_nodup d k (v : V) : NoDup (keys d) -> NoDup (keys (idict_set d k v)).
Proof.
  induction d as [|[k' v'] d IH]; simpl; intros N.
  - repeat constructor. intros [].
  - inversion N; subst. destruct (range_eq k' k) eqn:E; simpl; [assumption|].
    constructor; [|auto]. intros H. apply idict_set_keys in H. destruct H as [H| ->]; [contradiction|].
    rewrite (proj2 (range_eq_iff k k) eq_refl) in E. discriminate.
Qed.
Lemma idict_get_set d k (v : V) q : idict_get (idict_set d k v) q = if range_eq k q then Ok v else idict_get d q.
Proof.
  induction d as [|[k' v'] d IH]; [reflexivity|]. simpl idict_set.
  destruct (range_eq k' k) eqn:E; simpl.
  - apply range_eq_iff in E. subst. destruct (range_eq k q); reflexivity.
  - rewrite IH. destruct (range_eq k' q) eqn:E1, (range_eq k q) eqn:E2; try reflexivity.
    apply range_eq_iff in E1, E2. subst. rewrite (proj2 (range_eq_iff q q) eq_refl) in E. discriminate.
Qed.
Lemma idict_of_snoc pairs p : idict_of (V:=V) (pairs ++ [p]) = idict_set (idict_of pairs) (fst p) (snd p).
Proof. unfold idict_of. now rewrite fold_left_app. Qed.
Lemma idict_of_keys pairs q : In q (keys (idict_of (V:=V) pairs)) <-> In q (keys pairs).
Proof.
  induction pairs as [|p pairs IH] using rev_ind; [reflexivity|].
  rewrite idict_of_snoc, idict_set_keys, IH, map_app, in_app_iff. simpl. intuition.
Qed.
Lemma idict_of_nodup pairs : NoDup (keys (idict_of (V:=V) pairs)).
Proof.
  induction pairs as [|p pairs IH] using rev_ind; [constructor|].
  rewrite idict_of_snoc. now apply idict_set_nodup.
Qed.
Lemma idict_of_get pairs q :
  idict_get (idict_of (V:=V) pairs) q = match last_value pairs q with Some v => Ok v | None => Raise KeyError end.
Proof.
  induction pairs as [|p pairs IH] using rev_ind; [reflexivity|].
  rewrite idict_of_snoc, idict_get_set. unfold last_value in *. rewrite rev_app_distr. simpl.
  destruct (range_eq (fst p) q); [reflexivity|]. exact IH.
Qed.
Lemma last_value_in pairs k : In k (keys pairs) -> exists v, last_value (pairs) k = Some v.
Proof.
  intros H. unfold last_value. destruct (find _ (rev pairs)) as [p|] eqn:E; [eauto|].
  apply in_map_iff in H. destruct H as (p & <- & Hp). apply in_rev in Hp.
  pose proof (find_none _ _ E p Hp) as F. simpl in F.
  rewrite (proj2 (range_eq_iff _ _) eq_refl) in F. discriminate.
Qed.
Lemma idict_of_id d : NoDup (keys d) -> idict_of (V:=V) d = d.
Proof.
  induction d as [|p d IH] using rev_ind; intros N; [reflexivity|].
  rewrite map_app in N. simpl in N. rewrite idict_of_snoc, IH by (apply NoDup_remove_1 in N; now rewrite app_nil_r in N).
  apply NoDup_remove_2 in N. rewrite app_nil_r in N. clear IH.
  induction d as [|q d IH]; [destruct p; reflexivity|]. simpl in *. destruct q as [k v].
  destruct (range_eq k (fst p)) eqn:E.
  - apply range_eq_iff in E. simpl in N. exfalso. apply N. now left.
  - f_equal. apply IH. intros H. apply N. now right.
Qed.

Lemma fop_in {A} (P : A -> A -> Prop) l : (forall a b, P a b -> P b a) -> ForallOrdPairs P l ->
  NoDup l -> forall a b, In a l -> In b l -> a <> b -> P a b.
Proof.
  intros SY F. induction F as [|x l FA F IH]; intros N a b Ha Hb NE; [contradiction|].
  inversion N; subst. rewrite Forall_forall in FA.
  destruct Ha as [->|Ha], Hb as [->|Hb]; auto. congruence.
Qed.
Lemma in_fop {A} (P : A -> A -> Prop) l : NoDup l -> (forall a b, In a l -> In b l -> a <> b -> P a b) ->
  ForallOrdPairs P l.
Proof.
  induction l as [|x l IH]; intros N H; constructor; inversion N; subst.
  - apply Forall_forall. intros y Hy. apply H; simpl; auto. intros ->. contradiction.
  - apply IH; auto. intros; apply H; simpl; auto.
Qed.

Definition good_keys (pairs : list (rng * V)) : Prop :=
  (forall k, In k (keys pairs) -> is_empty k = false) /\
  (forall a b, In a (keys pairs) -> In b (keys pairs) -> a <> b -> is_connected a b = false).

Lemma make_spec pairs : Forall valid (keys pairs) ->
  (good_keys pairs /\ exists rs, immutablerangemap pairs = Ok (MkMap (idict_of pairs) (map kv rs)) /\
     WF rs /\ forall k, In k rs <-> In k (keys pairs)) \/
  (~ good_keys pairs /\ immutablerangemap pairs = Raise ValueError).
Proof.
  intros F. unfold immutablerangemap, build.
  set (d := idict_of pairs).
  assert (Fd : Forall valid (keys d)).
  { rewrite Forall_forall in *. intros k Hk. apply F. unfold d in Hk. now apply idict_of_keys. }
  assert (W0 : WF (@nil rng)) by (split; constructor).
  destruct (build_count (keys d) [] W0 Fd) as (rs & B & W & LE & IFF & MEM).
  change (foldM add (keys d) create_mutable) with (foldM add (keys d) (map kv [])). rewrite B. cbn [bind].
  unfold rs_len. rewrite map_length. simpl in LE, IFF, MEM. rewrite map_length in *.
  assert (GK : disjoint_keys (keys d) <-> good_keys pairs).
  { pose proof (idict_of_nodup pairs) as N. fold d in N.
    assert (K : forall k, In k (keys d) <-> In k (keys pairs)) by (intros k; apply idict_of_keys).
    unfold disjoint_keys, good_keys. rewrite Forall_forall. split.
    - intros [H1 H2]. split; [intros k Hk; apply H1; now apply K|].
      intros a b Ha Hb NE. apply (fop_in (fun a b => is_connected a b = false) (keys d)); auto; try (now apply K).
      intros x y. now rewrite connected_sym.
    - intros [H1 H2]. split; [intros k Hk; apply H1; now apply K|].
      apply in_fop; [assumption|]. intros a b Ha Hb. apply H2; now apply K. }
  destruct (Nat.eqb_spec (length d) (length rs)) as [E|E].
  - left. split; [apply GK; apply IFF; lia|]. exists rs. split; [reflexivity|]. split; [assumption|].
    intros k. rewrite (MEM ltac:(lia)). unfold d. rewrite idict_of_keys. tauto.
  - right. split; [|reflexivity]. intros G. apply E. symmetry. apply IFF. split; [now apply GK|]. contradiction.
Qed.

(** Values as a set *)
Variable veq : V -> V -> bool.
Hypothesis veq_iff : forall a b, veq a b = true <-> a = b.
Lemma iset_add_in acc v x : In x (iset_add veq acc v) <-> In x acc \/ x = v.
Proof using veq_iff.
  induction acc as [|a acc IH]; simpl; [intuition congruence|].
  destruct (veq a v) eqn:E; simpl.
  - apply veq_iff in E. subst. intuition congruence.
  - rewrite IH. tauto.
Qed.
Lemma iset_add_nodup acc v : NoDup acc -> NoDup (iset_add veq acc v).
Proof using veq_iff.
  induction acc as [|a acc IH]; simpl; intros N; [repeat constructor; intros []|].
  inversion N; subst. destruct (veq a v) eqn:E; [assumption|]. constructor; auto.
  intros H. apply iset_add_in in H. destruct H as [H| ->]; [contradiction|].
  rewrite (proj2 (veq_iff v v) eq_refl) in E. discriminate.
Qed.
Lemma enclosed_fold (m : rmap T V) ks acc (f : rng -> V) : (forall k, In k ks -> idict_get (rng_to_val m) k = Ok (f k)) ->
  NoDup acc ->
  exists vs, foldM (fun acc k => let* v := idict_get (rng_to_val m) k in Ok (iset_add veq acc v)) ks acc = Ok vs /\
    NoDup vs /\ forall v, In v vs <-> In v acc \/ exists k, In k ks /\ f k = v.
Proof using veq_iff.
  revert acc. induction ks as [|k ks IH]; intros acc H N.
  - exists acc. simpl. repeat split; auto. intros [?|(k & [] & _)]; assumption.
  - cbn [foldM]. rewrite (H k (or_introl eq_refl)). cbn [bind].
    destruct (IH (iset_add veq acc (f k))) as (vs & E & N' & M).
    + intros; apply H; simpl; auto.
    + now apply iset_add_nodup.
    + exists vs. split; [exact E|]. split; [assumption|]. intros v. rewrite M, iset_add_in. simpl. split.
      * intros [[?| ->]|(k' & ? & ?)]; eauto.
      * intros [?|(k' & [<-|?] & <-)]; eauto.
Qed.
End Proofs.
