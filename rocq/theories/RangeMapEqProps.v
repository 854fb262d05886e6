(** * C107: equality and hash of range maps *)
From Coq Require Import Sorted Permutation.
From Verif Require Import Prelude Order Range RangeFacts RangeProofs RangeProofs1 SortedDict RangeSet
  RangeSetOps RangeSetProofs RangeSetProofs2 RangeSetProps RangeMap RangeMapProofs RangeMapProps RangeMapEq.

Section P.
Context {T : Type} {O : TotalOrder T} {V : Type}.
Variable veq : V -> V -> bool.
(** Two results that are both None, or equal values. *)
Definition same_value (a b : option V) : Prop := match a, b with Some v, Some w => veq v w = true | None, None => True | _, _ => False end.

Lemma get_ok (d : idict T V) k v : idict_get d k = Ok v -> In k (map fst d).
Proof. induction d as [|[k' v'] d IH]; simpl; [discriminate|]. destruct (range_eq k' k) eqn:E; [intros _; left; now apply range_eq_iff|auto]. Qed.
Lemma get_in (d : idict T V) kv : NoDup (map fst d) -> In kv d -> idict_get d (fst kv) = Ok (snd kv).
Proof.
  induction d as [|[k' v'] d IH]; simpl; [contradiction|]. intros N [<-|I]; [simpl; now rewrite (proj2 (range_eq_iff k' k') eq_refl)|]. inversion N as [|? ? N1 N2]; subst. destruct (range_eq k' (fst kv)) eqn:E; [|auto].
  apply range_eq_iff in E. exfalso. apply N1. rewrite E. now apply in_map.
Qed.
Lemma idict_eq_spec (a b : idict T V) : NoDup (map fst a) -> NoDup (map fst b) ->
  (idict_eq veq a b = true <-> forall k, match idict_get a k, idict_get b k with Ok v, Ok w => veq v w = true | Raise _, Raise _ => True | _, _ => False end).
Proof.
  intros Na Nb. unfold idict_eq. rewrite andb_true_iff, Nat.eqb_eq, forallb_forall. split.
  - intros (L & H). assert (I : incl (map fst a) (map fst b)).
    { intros k Ik. apply in_map_iff in Ik. destruct Ik as (kv & <- & Ik). specialize (H kv Ik). destruct (idict_get b (fst kv)) eqn:E; [|discriminate]. exact (get_ok _ _ _ E). }
    assert (I2 : incl (map fst b) (map fst a)) by (apply NoDup_length_incl; [assumption|rewrite !map_length; lia|assumption]).
    intros k. destruct (idict_get a k) as [v|e] eqn:Ea.
    + assert (Ik := get_ok _ _ _ Ea). apply in_map_iff in Ik. destruct Ik as (kv & <- & Ik). specialize (H kv Ik). rewrite (get_in _ _ Na Ik) in Ea. injection Ea as <-. destruct (idict_get b (fst kv)); [assumption|discriminate].
    + destruct (idict_get b k) as [w|] eqn:Eb; [|exact Logic.I]. assert (Ik := I2 _ (get_ok _ _ _ Eb)). apply in_map_iff in Ik. destruct Ik as (kv & <- & Ik). rewrite (get_in _ _ Na Ik) in Ea. discriminate.
  - intros H. split.
    + assert (forall k, In k (map fst a) <-> In k (map fst b)) as S.
      { intros k. specialize (H k). split; intros Ik; apply in_map_iff in Ik; destruct Ik as (kv & <- & Ik).
        - rewrite (get_in _ _ Na Ik) in H. destruct (idict_get b (fst kv)) eqn:E; [exact (get_ok _ _ _ E)|destruct H].
        - rewrite (get_in _ _ Nb Ik) in H. destruct (idict_get a (fst kv)) eqn:E; [exact (get_ok _ _ _ E)|destruct H]. }
      rewrite <- (map_length fst a), <- (map_length fst b). apply Nat.le_antisymm; apply NoDup_incl_length; auto; intros k; apply S.
    + intros kv I. specialize (H (fst kv)). rewrite (get_in _ _ Na I) in H. destruct (idict_get b (fst kv)); [assumption|destruct H].
Qed.
Lemma made (pairs : list (range T * V)) m : Forall factory_made (map fst pairs) -> immutablerangemap pairs = Ok m ->
  exists rs, m = MkMap (idict_of pairs) (map kv rs) /\ WF rs /\ forall k, In k rs <-> In k (map fst pairs).
Proof.
  intros F E. assert (Fv : Forall valid (map fst pairs)) by (revert F; apply Forall_impl; intros; now apply valid_factory).
  destruct (make_spec pairs Fv) as [(G & rs & E' & W & K)|(G & E')]; [|congruence]. exists rs. split; [congruence|auto].
Qed.
Lemma eq_dict (pairs1 pairs2 : list (range T * V)) m1 m2 : Forall factory_made (map fst pairs1) -> Forall factory_made (map fst pairs2) -> immutablerangemap pairs1 = Ok m1 -> immutablerangemap pairs2 = Ok m2 ->
  (rm_eq veq m1 m2 = true <-> forall k, same_value (last_value pairs1 k) (last_value pairs2 k)) /\ (rm_eq veq m1 m2 = true -> range_set m1 = range_set m2).
Proof.
  intros F1 F2 E1 E2. destruct (made _ _ F1 E1) as (rs1 & -> & W1 & K1). destruct (made _ _ F2 E2) as (rs2 & -> & W2 & K2). unfold rm_eq. cbn [rng_to_val range_set].
  rewrite andb_true_iff, (idict_eq_spec _ _ (idict_of_nodup pairs1) (idict_of_nodup pairs2)), (rs_eq_q _ _ W1 W2).
  assert (G : (forall k, match idict_get (idict_of pairs1) k, idict_get (idict_of pairs2) k with Ok v, Ok w => veq v w = true | Raise _, Raise _ => True | _, _ => False end) <-> forall k, same_value (last_value pairs1 k) (last_value pairs2 k)).
  { split; intros H k; specialize (H k); rewrite !idict_of_get in *; unfold same_value in *; destruct (last_value pairs1 k), (last_value pairs2 k); assumption. }
  split; [|intros (_ & ->); reflexivity]. rewrite G. split; [now intros (H & _)|]. intros H. split; [assumption|].
  apply wf_unique; auto. intros k. rewrite K1, K2. specialize (H k). split; intros I; destruct (last_value_in _ _ I) as (v & Ev); rewrite Ev in H;
    [destruct (last_value pairs2 k) eqn:E|destruct (last_value pairs1 k) eqn:E]; try (destruct H); unfold last_value in E; destruct (find _ (rev _)) as [p|] eqn:Ef; try discriminate; apply find_some in Ef; destruct Ef as (Ip & Ep); apply range_eq_iff in Ep; subst k; apply in_map; now apply in_rev.
Qed.
End P.

(** Two range maps are equal exactly when every range is a key of both, with equal values, or of neither; in which order the pairs were given, and which values later pairs
    replaced, does not matter. *)
Theorem C107_equality : forall (T : Type) (O : TotalOrder T) (V : Type) (veq : V -> V -> bool) (pairs1 pairs2 : list (range T * V)) m1 m2,
  Forall factory_made (map fst pairs1) -> Forall factory_made (map fst pairs2) -> immutablerangemap pairs1 = Ok m1 -> immutablerangemap pairs2 = Ok m2 ->
  (rm_eq veq m1 m2 = true <-> forall k, same_value veq (last_value pairs1 k) (last_value pairs2 k)).
Proof. intros T O V veq pairs1 pairs2 m1 m2 F1 F2 E1 E2. now apply (eq_dict veq pairs1 pairs2). Qed.

(** For values whose equality is an equivalence, so is that of the maps. *)
Theorem C107_equivalence : forall (T : Type) (O : TotalOrder T) (V : Type) (veq : V -> V -> bool) (pairs1 pairs2 pairs3 : list (range T * V)) m1 m2 m3,
  (forall a, veq a a = true) -> (forall a b, veq a b = veq b a) -> (forall a b c, veq a b = true -> veq b c = true -> veq a c = true) ->
  Forall factory_made (map fst pairs1) -> Forall factory_made (map fst pairs2) -> Forall factory_made (map fst pairs3) ->
  immutablerangemap pairs1 = Ok m1 -> immutablerangemap pairs2 = Ok m2 -> immutablerangemap pairs3 = Ok m3 ->
  rm_eq veq m1 m1 = true /\ rm_eq veq m1 m2 = rm_eq veq m2 m1 /\ (rm_eq veq m1 m2 = true -> rm_eq veq m2 m3 = true -> rm_eq veq m1 m3 = true).
Proof.
  intros T O V veq p1 p2 p3 m1 m2 m3 R Sy Tr F1 F2 F3 E1 E2 E3. split; [|split].
  - apply (C107_equality T O V veq p1 p1 m1 m1); auto. intros k. destruct (last_value p1 k); simpl; auto.
  - apply Bool.eq_iff_eq_true. rewrite (C107_equality T O V veq p1 p2 m1 m2), (C107_equality T O V veq p2 p1 m2 m1) by assumption.
    split; intros H k; specialize (H k); unfold same_value in *; destruct (last_value p1 k), (last_value p2 k); auto; now rewrite Sy.
  - rewrite (C107_equality T O V veq p1 p2 m1 m2), (C107_equality T O V veq p2 p3 m2 m3), (C107_equality T O V veq p1 p3 m1 m3) by assumption.
    intros H1 H2 k. specialize (H1 k). specialize (H2 k). unfold same_value in *. destruct (last_value p1 k), (last_value p2 k), (last_value p3 k); auto; try contradiction. now apply (Tr _ v0).
Qed.

(** Equal maps give the same answers. *)
Theorem C107_same_answers : forall (T : Type) (O : TotalOrder T) (V : Type) (veq : V -> V -> bool) (pairs1 pairs2 : list (range T * V)) m1 m2,
  (forall a, veq a a = true) -> (forall a b, veq a b = veq b a) -> (forall a b c, veq a b = true -> veq b c = true -> veq a c = true) ->
  Forall factory_made (map fst pairs1) -> Forall factory_made (map fst pairs2) -> immutablerangemap pairs1 = Ok m1 -> immutablerangemap pairs2 = Ok m2 ->
  rm_eq veq m1 m2 = true ->
  rm_is_empty m1 = rm_is_empty m2 /\ (forall x, rm_contains m1 x = rm_contains m2 x) /\
  (forall x, exists v1 v2, rm_getitem m1 x = Ok v1 /\ rm_getitem m2 x = Ok v2 /\ same_value veq v1 v2) /\
  (forall x, exists v1 v2, rm_rightmost m1 x = Ok v1 /\ rm_rightmost m2 x = Ok v2 /\ same_value veq v1 v2) /\
  (forall x, exists v1 v2, rm_leftmost m1 x = Ok v1 /\ rm_leftmost m2 x = Ok v2 /\ same_value veq v1 v2) /\
  (forall q, exists l1 l2, rm_enclosed_by veq m1 q = Ok l1 /\ rm_enclosed_by veq m2 q = Ok l2 /\ Forall2 (fun a b => veq a b = true) l1 l2).
Proof.
  intros T O V veq p1 p2 m1 m2 R Sy Tr F1 F2 E1 E2 Eq.
  assert (Sv := proj1 (C107_equality T O V veq p1 p2 m1 m2 F1 F2 E1 E2) Eq). assert (Es := proj2 (eq_dict veq p1 p2 m1 m2 F1 F2 E1 E2) Eq). clear Eq.
  destruct (made _ _ F1 E1) as (rs & -> & W & K). destruct (made _ _ F2 E2) as (rs2 & -> & _ & _). cbn [range_set] in Es. rewrite <- Es. clear E1 E2.
  assert (In1 : forall k, In k rs -> exists v w, idict_get (idict_of p1) k = Ok v /\ idict_get (idict_of p2) k = Ok w /\ veq v w = true).
  { intros k I. apply K in I. destruct (last_value_in _ _ I) as (v & Ev). specialize (Sv k). rewrite !idict_of_get. rewrite Ev in *. destruct (last_value p2 k) as [w|]; [|destruct Sv]. exists v, w. auto. }
  assert (Vo : forall o, (forall k, o = Some k -> In k rs) -> exists v1 v2, value_of (MkMap (idict_of p1) (map kv rs)) o = Ok v1 /\ value_of (MkMap (idict_of p2) (map kv rs)) o = Ok v2 /\ same_value veq v1 v2).
  { intros [k|] Ho; [|exists None, None; simpl; auto]. destruct (In1 k (Ho k eq_refl)) as (v & w & A & B & C). exists (Some v), (Some w). unfold value_of. cbn [rng_to_val]. rewrite A, B. auto. }
  split; [reflexivity|]. split; [reflexivity|]. split; [|split; [|split]].
  - intros x. unfold rm_getitem. cbn [range_set]. rewrite contains_q by assumption. cbn [bind]. apply Vo. intros k Ek. now apply find_some in Ek.
  - intros x. unfold rm_rightmost. cbn [range_set]. destruct (greater_than x) as [above|] eqn:Ha; [|discriminate]. rewrite (rightmost_q rs x above W Ha). cbn [bind]. apply Vo. intros k Ek.
    assert (In k (rev (filter (fun k => negb (encloses above k)) rs))) as I by (destruct (rev _) as [|y l]; [discriminate|]; injection Ek as ->; now left). apply in_rev in I. now apply filter_In in I.
  - intros x. unfold rm_leftmost. cbn [range_set]. destruct (less_than x) as [below|] eqn:Hb; [|discriminate]. rewrite (leftmost_q rs x below W Hb). cbn [bind]. apply Vo. intros k Ek.
    assert (In k (filter (fun k => negb (encloses below k)) rs)) as I by (destruct (filter _ _) as [|y l]; [discriminate|]; injection Ek as ->; now left). now apply filter_In in I.
  - intros q. unfold rm_enclosed_by. cbn [range_set]. rewrite enclosed_by_q by assumption. cbn [bind rng_to_val].
    assert (I : incl (filter (encloses q) rs) rs) by (intros k Ik; now apply filter_In in Ik). revert I.
    assert (A0 : Forall2 (fun a b => veq a b = true) (@nil V) []) by constructor. revert A0. generalize (@nil V) at 1 3 as a1. generalize (@nil V) as a2. 
    induction (filter (encloses q) rs) as [|k ks IH]; intros a2 a1 A I; cbn [foldM]; [exists a1, a2; auto|].
    destruct (In1 k (I k (or_introl eq_refl))) as (v & w & -> & -> & Evw). cbn [bind]. apply IH; [|intros k' Ik'; apply I; now right].
    clear -R Sy Tr A Evw. induction A as [|a b a1 a2 Eab A IH]; simpl; [repeat constructor; assumption|].
    assert (veq a v = veq b w) as ->. { apply Bool.eq_iff_eq_true. split; intros H; [apply (Tr b a w); [now rewrite Sy|]; now apply (Tr a v w)|apply (Tr a b v); [assumption|]; apply (Tr b w v); [assumption|now rewrite Sy]]. }
    destruct (veq b w); constructor; auto.
Qed.

(** Pairs with different keys, given in another order, make an equal map. *)
Theorem C107_order_irrelevant : forall (T : Type) (O : TotalOrder T) (V : Type) (veq : V -> V -> bool) (pairs1 pairs2 : list (range T * V)) m1,
  (forall a, veq a a = true) -> Forall factory_made (map fst pairs1) -> NoDup (map fst pairs1) -> Permutation pairs1 pairs2 -> immutablerangemap pairs1 = Ok m1 ->
  exists m2, immutablerangemap pairs2 = Ok m2 /\ rm_eq veq m1 m2 = true.
Proof.
  intros T O V veq p1 p2 m1 R F N P E.
  assert (F2 : Forall factory_made (map fst p2)) by (apply (Permutation_Forall (Permutation_map fst P)); assumption).
  assert (I : forall k, In k (map fst p2) <-> In k (map fst p1)) by (intros k; split; apply Permutation_in; [apply Permutation_sym|]; now apply Permutation_map).
  assert (X : exists m2, immutablerangemap p2 = Ok m2).
  { destruct (C25_construction T O V p1 F) as (_ & B). destruct (C25_construction T O V p2 F2) as (A & _).
    destruct (immutablerangemap p2) as [m2|e] eqn:E2; [eauto|]. exfalso. rewrite E in B.
    assert (~ ~ ((forall k, In k (map fst p1) -> is_empty k = false) /\ (forall a b, In a (map fst p1) -> In b (map fst p1) -> a <> b -> is_connected a b = false))) as NN by (intros H; discriminate (B H)).
    apply NN. intros (G1 & G2). destruct A as (m & Em & _); [|discriminate]. split; [intros k Ik; apply G1; now apply I|intros a b Ia Ib; apply G2; now apply I]. }
  destruct X as (m2 & E2). exists m2. split; [assumption|]. apply (C107_equality T O V veq p1 p2 m1 m2); try assumption.
  assert (U : forall (p : list (range T * V)) k v, NoDup (map fst p) -> In (k, v) p -> last_value p k = Some v).
  { intros p k v Np Ip. assert (In k (map fst p)) as Ik by (apply in_map_iff; exists (k, v); auto). destruct (last_value_in _ _ Ik) as (w & Ew). rewrite Ew. f_equal. unfold last_value in Ew.
    destruct (find _ (rev p)) as [[k' v']|] eqn:Ef; [|discriminate]. injection Ew as <-. apply find_some in Ef. destruct Ef as (I' & E'). apply in_rev in I'. cbn [fst snd] in *. apply range_eq_iff in E'. subst k'.
    assert (Gp := get_in p (k, v) Np Ip). rewrite (get_in p (k, v') Np I') in Gp. cbn [snd] in Gp. congruence. }
  assert (N2 : NoDup (map fst p2)) by (apply (Permutation_NoDup (Permutation_map fst P)); assumption).
  intros k. destruct (last_value p1 k) as [v|] eqn:E1.
  - assert (In (k, v) p1) as Ip. { unfold last_value in E1. destruct (find _ (rev p1)) as [[k' v']|] eqn:Ef; [|discriminate]. injection E1 as <-. apply find_some in Ef. destruct Ef as (I' & E'). apply in_rev in I'. cbn [fst snd] in *. apply range_eq_iff in E'. now subst k'. }
    rewrite (U p2 k v N2 (Permutation_in _ P Ip)). simpl. apply R.
  - destruct (last_value p2 k) as [w|] eqn:E3; [|exact Logic.I]. assert (In k (map fst p2)) as Ik. { unfold last_value in E3. destruct (find _ (rev p2)) as [[k' v']|] eqn:Ef; [|discriminate]. apply find_some in Ef. destruct Ef as (I' & E'). apply in_rev in I'. cbn [fst snd] in *. apply range_eq_iff in E'. subst k'. apply in_map_iff. exists (k, v'). auto. }
    apply I in Ik. destruct (last_value_in _ _ Ik) as (v & Ev). congruence.
Qed.

(** Refuted, if equality of range maps was meant to be equality of their lookups: maps with different key ranges that hold the same integers are different, though each lookup gives the same. *)
Theorem C107_extensional_refuted : exists m1 m2 : rmap Z nat, immutablerangemap [(MkRange (BelowV 1%Z) (AboveV 2%Z), 7%nat)] = Ok m1 /\ immutablerangemap [(MkRange (BelowV 1%Z) (BelowV 3%Z), 7%nat)] = Ok m2 /\
  rm_eq Nat.eqb m1 m2 = false /\ forall x, rm_getitem m1 x = rm_getitem m2 x.
Proof.
  pose (r1 := MkRange (BelowV 1%Z) (AboveV 2%Z)). pose (r2 := MkRange (BelowV 1%Z) (BelowV 3%Z)).
  exists (MkMap [(r1, 7)] (map kv [r1])), (MkMap [(r2, 7)] (map kv [r2])). split; [reflexivity|]. split; [reflexivity|]. split; [reflexivity|]. intros x.
  assert (W : forall r : range Z, good r -> WF [r]) by (intros r G; split; [constructor; [exact G|constructor]|repeat constructor]).
  assert (G1 : good r1) by (split; reflexivity). assert (G2 : good r2) by (split; reflexivity).
  unfold rm_getitem. cbn [range_set].
  rewrite !contains_q by (apply W; assumption). cbn [find bind].
  assert (E : contains r1 x = contains r2 x).
  { unfold contains, is_less_than, r1, r2. cbn [lower upper ltb eqb Z_order]. destruct (Z.ltb_spec 1 x), (Z.ltb_spec 2 x), (Z.ltb_spec 3 x), (Z.eqb_spec 1 x), (Z.eqb_spec 3 x); simpl; try reflexivity; lia. }
  rewrite E. destruct (contains r2 x); reflexivity.
Qed.

(** Refuted: the equality a subclass of RangeMap inherits compares the keys only: maps that give different values are equal. *)
Theorem C107_inherited_equality_refuted : forall (T : Type) (O : TotalOrder T) (V : Type) (pairs : list (range T * V)) (f : V -> V) m1,
  Forall factory_made (map fst pairs) -> immutablerangemap pairs = Ok m1 ->
  exists m2, immutablerangemap (map (fun kv => (fst kv, f (snd kv))) pairs) = Ok m2 /\ inherited_eq m1 m2 = true /\
    forall x v, rm_getitem m1 x = Ok (Some v) -> rm_getitem m2 x = Ok (Some (f v)).
Proof.
  intros T O V pairs f m1 F E. set (g := fun kv : range T * V => (fst kv, f (snd kv))).
  assert (Ek : map fst (map g pairs) = map fst pairs) by (rewrite map_map; apply map_ext; reflexivity).
  assert (F2 : Forall factory_made (map fst (map g pairs))) by now rewrite Ek.
  assert (Ei : forall (d : idict T V) k v, idict_set (map g d) k (f v) = map g (idict_set d k v)). { induction d as [|[k' v'] d IH]; intros k v; simpl; [reflexivity|]. destruct (range_eq k' k); [reflexivity|]. simpl. now rewrite IH. }
  assert (Ed : idict_of (map g pairs) = map g (idict_of pairs)).
  { unfold idict_of. change (@nil (range T * V)) with (map g []) at 1. generalize (@nil (range T * V)) as d. clear -Ei. induction pairs as [|[k v] pairs IH]; intros d; simpl; [reflexivity|]. rewrite Ei. apply IH. }
  assert (Eg : forall (d : idict T V) k, idict_get (map g d) k = match idict_get d k with Ok v => Ok (f v) | Raise e => Raise e end). { induction d as [|[k' v'] d IH]; intros k; simpl; [reflexivity|]. destruct (range_eq k' k); [reflexivity|]. apply IH. }
  destruct (made _ _ F E) as (rs & -> & W & K).
  exists (MkMap (map g (idict_of pairs)) (map kv rs)). split; [|split].
  - unfold immutablerangemap in *. rewrite Ed, map_map. cbn [fst g]. rewrite map_length. apply bind_ok in E. destruct E as (d & B & E). unfold idict in B.
    change (map (fun x : range T * V => fst x)) with (map (@fst (range T) V)). rewrite B. cbn [bind]. destruct (_ =? _)%nat; [|discriminate]. congruence.
  - unfold inherited_eq, as_dict. cbn [rng_to_val]. rewrite map_map. cbn [fst g]. change (map (fun x : range T * V => fst x)) with (map (@fst (range T) V)). rewrite Nat.eqb_refl. cbn [andb].
    apply forallb_forall. intros r I. apply existsb_exists. exists r. split; [assumption|]. now apply range_eq_iff.
  - intros x v. unfold rm_getitem. cbn [range_set]. rewrite contains_q by assumption. cbn [bind]. destruct (find _ rs) as [k|]; unfold value_of; cbn [rng_to_val]; [|discriminate]. rewrite Eg. destruct (idict_get (idict_of pairs) k) as [w|]; cbn [bind]; congruence.
Qed.

(** Refuted: equal maps - even one map, asked twice - have different hashes while the views made for hashing them are different objects, if all the values can be hashed; otherwise hash raises. *)
Theorem C107_hash_refuted : forall (T : Type) (O : TotalOrder T) (V : Type) (veq : V -> V -> bool) (vhash : V -> res Z) dict_hash mix id_hash (pairs : list (range T * V)) m,
  (forall a, veq a a = true) -> (forall d a b, mix d a = mix d b -> a = b) -> (forall a b : nat, id_hash a = id_hash b -> a = b) ->
  Forall factory_made (map fst pairs) -> immutablerangemap pairs = Ok m ->
  rm_eq veq m m = true /\
  ((forall v, exists h, vhash v = Ok h) -> forall view1 view2, view1 <> view2 -> exists h1 h2, rm_hash vhash dict_hash mix id_hash view1 m = Ok h1 /\ rm_hash vhash dict_hash mix id_hash view2 m = Ok h2 /\ h1 <> h2) /\
  (forall k v e, last_value pairs k = Some v -> vhash v = Raise e -> forall view, exists e', rm_hash vhash dict_hash mix id_hash view m = Raise e').
Proof.
  intros T O V veq vhash dict_hash mix id_hash pairs m R Mi Hi F E. split; [|split].
  - apply (C107_equality T O V veq pairs pairs m m); auto. intros k. destruct (last_value pairs k); simpl; auto.
  - intros Hh v1 v2 N. unfold rm_hash. set (f := fun kv : range T * V => let* h := vhash (snd kv) in Ok (fst kv, h)).
    assert (exists hs, mapM f (rng_to_val m) = Ok hs) as (hs & ->).
    { induction (rng_to_val m) as [|kv d (hs & IH)]; simpl; [eauto|]. destruct (Hh (snd kv)) as (h & Eh). unfold f at 1. rewrite Eh. cbn [bind]. rewrite IH. cbn [bind]. eauto. }
    cbn [bind]. eexists. eexists. split; [reflexivity|]. split; [reflexivity|]. intros H. apply N, Hi, (Mi _ _ _ H).
  - intros k v e L Eh view. destruct (made _ _ F E) as (rs & -> & W & K). unfold rm_hash. cbn [rng_to_val].
    assert (exists kv, In kv (idict_of pairs) /\ snd kv = v) as (kv & I & Es).
    { assert (G := idict_of_get pairs k). rewrite L in G. clear -G. induction (idict_of pairs) as [|[k' v'] d IH]; simpl in *; [discriminate|]. destruct (range_eq k' k); [exists (k', v'); split; [now left|]; simpl; congruence|]. destruct (IH G) as (kv & I & Es). exists kv. auto. }
    set (f := fun kv : range T * V => let* h := vhash (snd kv) in Ok (fst kv, h)).
    assert (exists e', mapM f (idict_of pairs) = Raise e') as (e' & ->).
    { clear -I Es Eh. induction (idict_of pairs) as [|kv' d IH]; [destruct I|]. simpl. destruct I as [->|I]; [unfold f at 1; rewrite Es, Eh; simpl; eauto|]. destruct (f kv') as [y|e0]; cbn [bind]; [|eauto]. destruct (IH I) as (e' & ->). simpl. eauto. }
    simpl. eauto.
Qed.

Example C107_witness :
  let p1 := [(MkRange (AboveV 1%Z) (AboveV 10%Z), 3); (MkRange (AboveV 12%Z) (BelowV 15%Z), 17)]%nat in
  let p2 := [(MkRange (AboveV 12%Z) (BelowV 15%Z), 4); (MkRange (AboveV 1%Z) (AboveV 10%Z), 3); (MkRange (AboveV 12%Z) (BelowV 15%Z), 17)]%nat in
  let p3 := [(MkRange (AboveV 1%Z) (AboveV 10%Z), 3); (MkRange (AboveV 12%Z) (BelowV 15%Z), 18)]%nat in
  Forall factory_made (map fst p1) /\ Forall factory_made (map fst p2) /\ NoDup (map fst p1) /\
  exists m1 m2 m3, immutablerangemap p1 = Ok m1 /\ immutablerangemap p2 = Ok m2 /\ immutablerangemap p3 = Ok m3 /\ as_dict m1 <> as_dict m2 /\
    rm_eq Nat.eqb m1 m2 = true /\ rm_eq Nat.eqb m1 m3 = false /\ inherited_eq m1 m3 = true /\ rm_enclosed_by Nat.eqb m1 (MkRange BelowAll AboveAll) = Ok [3; 17]%nat.
Proof.
  cbv zeta. split; [|split; [|split]].
  - repeat (apply Forall_cons; [apply valid_factory; reflexivity|]); apply Forall_nil.
  - repeat (apply Forall_cons; [apply valid_factory; reflexivity|]); apply Forall_nil.
  - repeat constructor; simpl; intuition discriminate.
  - eexists. eexists. eexists. split; [reflexivity|]. split; [reflexivity|]. split; [reflexivity|]. split; [discriminate|]. repeat split.
Qed.
Example C107_hash_witness : (forall d a b : Z, (fun d x => 31 * d + x) d a = (fun d x => 31 * d + x) d b -> a = b)%Z /\ (forall a b, Z.of_nat a = Z.of_nat b -> a = b) /\ (forall v, exists h, (fun v : nat => Ok (Z.of_nat v)) v = Ok h).
Proof. split; [intros; lia|]. split; [intros; lia|]. eauto. Qed.
Print Assumptions C107_equality.
Print Assumptions C107_equivalence.
Print Assumptions C107_same_answers.
Print Assumptions C107_order_irrelevant.
Print Assumptions C107_extensional_refuted.
Print Assumptions C107_inherited_equality_refuted.
Print Assumptions C107_hash_refuted.
