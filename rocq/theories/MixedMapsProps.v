(** * C119: range maps over values of several types *)
From Verif Require Import Prelude Order Range RangeFacts RangeProofs1 RangeProofs SortedDict RangeSet RangeSetOps RangeSetProofs RangeSetProofs2 RangeSetProps RangePartial MixedSets MixedSetsProps RangeMap RangeMapProofs RangeMapProps MixedMaps.
Local Open Scope nat_scope.

Section MixedMaps.
Context {T : Type} {O : TotalOrder T} {V : Type}.
Notation rng := (range T).
(** [cls] is the type of a value; see MixedSetsProps.v for [typed_lt], [made], [has_endpoint], [clashes] and [one_type] *)
Variable cls : T -> nat.
Variable veq : V -> V -> bool.
Notation plt := (typed_lt cls).

(** ** Proofs *)
Lemma preq_ok (a b : rng) : prange_eq eqb a b = range_eq a b.
Proof. unfold prange_eq, range_eq. now rewrite !peq_ok. Qed.
Lemma pset_same (d : idict T V) k v : pidict_set eqb d k v = idict_set d k v.
Proof. induction d as [|[k' v'] d IH]; cbn; [reflexivity|]. rewrite preq_ok, IH. reflexivity. Qed.
Lemma pof_same (pairs : list (rng * V)) : pidict_of eqb pairs = idict_of pairs.
Proof.
  induction pairs as [|p pairs IH] using rev_ind; [reflexivity|]. unfold pidict_of, idict_of in *. rewrite !fold_left_app. cbn. rewrite IH. apply pset_same.
Qed.
Lemma pget_same (d : idict T V) k : pidict_get eqb d k = idict_get d k.
Proof. induction d as [|[k' v'] d IH]; cbn; [reflexivity|]. rewrite preq_ok, IH. reflexivity. Qed.
Lemma pvalue_same (m : rmap T V) p : pvalue_of eqb m p = value_of m p.
Proof. destruct p; cbn; [now rewrite pget_same|reflexivity]. Qed.
Lemma made_valid l : Forall (made cls) l -> Forall valid l.
Proof. intros H. apply Forall_forall. intros r J. rewrite Forall_forall in H. specialize (H r J). apply made_spec in H. apply valid_factory, H. Qed.
(** adding ranges of one type *)
Lemma add_all_ok c l : forall rs, WF rs -> Forall (uni cls c) rs -> Forall valid l -> Forall (uni cls c) l ->
  exists rs', add_all (map kv rs) l = Ok (map kv rs') /\ WF rs' /\ Forall (uni cls c) rs' /\ padd_all plt eqb (map kv rs) l = (map kv rs', Ok tt).
Proof.
  induction l as [|r l IH]; intros rs W F V1 U1; [exists rs; repeat split; auto; apply W|].
  destruct (padd_ok cls c rs W F r (Forall_inv V1) (Forall_inv U1)) as (rs1 & A & W1 & F1 & P). destruct (IH rs1 W1 F1 (Forall_inv_tail V1) (Forall_inv_tail U1)) as (rs2 & A2 & W2 & F2 & P2).
  exists rs2. split; [unfold add_all in *; cbn [foldM]; rewrite A; exact A2|]. split; [exact W2|]. split; [exact F2|]. cbn [padd_all]. rewrite P. exact P2.
Qed.
Lemma empty_wf : WF (@nil rng).
Proof. split; constructor. Qed.
Lemma no_clash_one_type a s r : Forall (made cls) a -> made cls r -> one_type cls (a ++ [r]) -> build a = Ok s -> ~ clashes cls (as_ranges s) r.
Proof.
  intros Ma Mr H B. apply one_type_uni in H. destruct H as (c & H). apply Forall_app in H. destruct H as (Ua & Ur).
  destruct (add_all_ok c a [] empty_wf (Forall_nil _) (made_valid a Ma) Ua) as (rs & A & W & F & _). unfold build, create_mutable in B. unfold add_all in A. cbn [map] in A. rewrite A in B. injection B as <-. rewrite as_ranges_kv.
  intros (m & x & y & J & X & Y & Q). apply Q. rewrite Forall_forall in F. rewrite (proj1 (uni_spec cls c m) (F m J) x X). symmetry. exact (proj1 (uni_spec cls c r) (Forall_inv Ur) y Y).
Qed.
Lemma one_type_incl (l l' : list rng) : (forall r, In r l' -> In r l) -> one_type cls l -> one_type cls l'.
Proof. intros H K m m' x y J J'. apply K; now apply H. Qed.

(** ** Theorems *)
(** C119: a map can be made exactly if its keys are of one type and the totally ordered map can be made (C25), and is then that map.  TypeError is raised exactly if, the distinct keys being added in the order of their
    first appearance, a non-empty one clashes with the ranges that the keys before it make up; otherwise, what is not a map is a ValueError. *)
Theorem C119_made : forall pairs : list (rng * V), Forall (made cls) (map fst pairs) ->
  (forall m, pimmutablerangemap plt eqb pairs = Ok m <-> one_type cls (map fst pairs) /\ immutablerangemap pairs = Ok m) /\
  (pimmutablerangemap plt eqb pairs = Raise TypeError <->
     exists a r b s, map fst (idict_of pairs) = a ++ r :: b /\ build a = Ok s /\ is_empty r = false /\ clashes cls (as_ranges s) r) /\
  (forall e, pimmutablerangemap plt eqb pairs = Raise e -> e = TypeError /\ ~ one_type cls (map fst pairs) \/ e = ValueError /\ immutablerangemap pairs = Raise ValueError).
Proof.
  intros pairs M. set (ks := map fst (idict_of pairs)).
  assert (K : forall k, In k ks <-> In k (map fst pairs)) by (intros k; apply idict_of_keys).
  assert (Mk : Forall (made cls) ks) by (rewrite Forall_forall in *; intros k J; apply M; now apply K).
  assert (Fn : fine cls (@nil rng)) by (split; [exact empty_wf|exists 0; constructor]).
  destruct (add_all_call cls ks [] Fn Mk) as (RC & rs' & E' & Fi). cbn [map right_call] in RC, E'.
  assert (P : pimmutablerangemap plt eqb pairs = match padd_all plt eqb [] ks with (_, Raise e) => Raise e | (rs, Ok _) => if length (idict_of pairs) =? length rs then Ok (MkMap (idict_of pairs) rs) else Raise ValueError end)
    by (unfold pimmutablerangemap; rewrite pof_same; reflexivity).
  assert (Q : immutablerangemap pairs = let* rs := add_all [] ks in if length (idict_of pairs) =? length rs then Ok (MkMap (idict_of pairs) rs) else Raise ValueError) by reflexivity.
  assert (NT : forall a r b s, ks = a ++ r :: b -> build a = Ok s -> clashes cls (as_ranges s) r -> ~ one_type cls (map fst pairs)).
  { intros a r b s Ek B C H. rewrite Ek in Mk. apply Forall_app in Mk. destruct Mk as (Ma & Mr). refine (no_clash_one_type a s r Ma (Forall_inv Mr) _ B C).
    apply (one_type_incl (map fst pairs)); [|exact H]. intros q J. apply K. rewrite Ek. apply in_app_iff in J. apply in_app_iff. destruct J as [J|[<-|[]]]; [now left|right; now left]. }
  destruct RC as [(d' & A & R)|(a & r & b & s & Ek & B & NE & C & R)]; rewrite R in P, E'; cbn [fst] in E'.
  - subst d'. rewrite A in Q. cbn [bind] in Q. rewrite <- Q in P.
    assert (OT : forall m, immutablerangemap pairs = Ok m -> one_type cls (map fst pairs)).
    { intros m H. destruct (make_spec pairs (made_valid _ M)) as [(_ & rs & E & W & I)|(_ & E)]; [|congruence]. rewrite Q in E. destruct (length (idict_of pairs) =? length (map kv rs')); [|discriminate]. injection E as E.
      assert (rs = rs') by (rewrite <- (values_kv rs), <- (values_kv rs'); now f_equal). subst rs'. apply (one_type_incl rs); [intros q; apply I|]. apply one_type_uni, Fi. }
    split; [|split].
    + intros m. rewrite P. split; [intros H; split; [exact (OT m H)|exact H]|tauto].
    + rewrite P. split.
      * intros H. exfalso. rewrite Q in H. destruct (_ =? _); discriminate H.
      * intros (a & r & b & s & Ek & B & NE & C). exfalso. assert (Mk' := Mk). rewrite Ek in Mk'. apply Forall_app in Mk'. destruct Mk' as (Ma & Mr).
        (* the same prefix, with the totally ordered calls *)
        destruct (add_all_call cls a [] Fn Ma) as (RCa & rsa & Ea & Fia). cbn [map right_call] in RCa, Ea.
        assert (SP : forall l1 l2 (d0 : rset T), padd_all plt eqb d0 (l1 ++ l2) = match padd_all plt eqb d0 l1 with (d', Ok _) => padd_all plt eqb d' l2 | (d', Raise e) => (d', Raise e) end).
        { clear. induction l1 as [|x l1 IH]; intros l2 d0; cbn [padd_all app]; [reflexivity|]. destruct (padd plt eqb d0 x) as [d1 [u|e]]; [apply IH|reflexivity]. }
        rewrite Ek, SP in R. destruct RCa as [(da & Aa & Ra)|(a' & r' & b' & d'' & _ & _ & _ & _ & Ra)]; rewrite Ra in R; [|discriminate R].
        cbn [padd_all] in R. rewrite Ra in Ea. cbn [fst] in Ea. subst da. assert (S' : s = map kv rsa) by (unfold build, create_mutable in B; unfold add_all in Aa; rewrite Aa in B; now injection B). subst s. rewrite as_ranges_kv in C.
        destruct (add_call cls rsa r Fia (Forall_inv Mr)) as (RCr & _). cbn [right_call] in RCr. rewrite as_ranges_kv in RCr. destruct RCr as [([X|X] & _)|(_ & _ & X)]; [congruence|contradiction|]. rewrite X in R. discriminate R.
    + intros e H. right. rewrite P, Q in H. rewrite Q. destruct (_ =? _); [discriminate H|]. injection H as <-. auto.
  - assert (N := NT a r b s Ek B C). split; [|split].
    + intros m. rewrite P. split; [discriminate|]. intros (H & _). contradiction.
    + rewrite P. split; [|reflexivity]. intros _. exists a, r, b, s. auto.
    + intros e H. rewrite P in H. injection H as <-. left. auto.
Qed.
(** what a map is made of *)
Lemma made_fine (pairs : list (rng * V)) m : Forall (made cls) (map fst pairs) -> pimmutablerangemap plt eqb pairs = Ok m ->
  exists rs, m = MkMap (idict_of pairs) (map kv rs) /\ WF rs /\ (exists c, Forall (uni cls c) rs) /\ forall k, In k rs <-> In k (map fst pairs).
Proof.
  intros M H. apply (proj1 (C119_made pairs M)) in H. destruct H as (OT & H). destruct (make_spec pairs (made_valid _ M)) as [(_ & rs & E & W & I)|(_ & E)]; [|congruence]. rewrite E in H. injection H as <-. exists rs. split; [reflexivity|]. split; [exact W|]. split; [|exact I].
  apply one_type_uni. apply (one_type_incl (map fst pairs)); [intros q; apply I|exact OT].
Qed.
Lemma clashes_iff (l l' : list rng) q : (forall k, In k l <-> In k l') -> clashes cls l q <-> clashes cls l' q.
Proof. intros H. split; intros (m & x & y & J & R); exists m, x, y; (split; [now apply H|exact R]). Qed.
(** C119: questions about values and ranges of the map's type are answered as in the totally ordered case (C26). *)
Theorem C119_lookups : forall (pairs : list (rng * V)) m, Forall (made cls) (map fst pairs) -> pimmutablerangemap plt eqb pairs = Ok m ->
  (forall x, (forall k z, In k (map fst pairs) -> has_endpoint k z -> cls z = cls x) ->
     prm_contains plt eqb m x = rm_contains m x /\ prm_getitem plt eqb m x = rm_getitem m x /\ prm_rightmost plt eqb m x = rm_rightmost m x /\ prm_leftmost plt eqb m x = rm_leftmost m x) /\
  (forall q, made cls q -> ~ clashes cls (map fst pairs) q -> prm_enclosed_by plt eqb veq m q = rm_enclosed_by veq m q).
Proof.
  intros pairs m M H. destruct (made_fine pairs m M H) as (rs & -> & W & (c & F) & I). split.
  - intros x X. assert (F' : Forall (uni cls (cls x)) rs) by (apply Forall_forall; intros k J; apply uni_spec; intros z Z; apply (X k z); [now apply I|exact Z]). destruct (same_containing cls (cls x) rs W F' x eq_refl) as (A & B & C & D).
    unfold prm_contains, rm_contains, prm_getitem, rm_getitem, prm_rightmost, rm_rightmost, prm_leftmost, rm_leftmost. cbn [range_set]. rewrite A, B, C, D. split; [reflexivity|].
    assert (E : forall o : res (option rng), bind o (pvalue_of eqb (MkMap (idict_of pairs) (map kv rs))) = bind o (value_of (MkMap (idict_of pairs) (map kv rs)))) by (intros [p|e]; cbn [bind]; [apply pvalue_same|reflexivity]).
    repeat split; apply E.
  - intros q Mq NC. apply made_spec in Mq. destruct Mq as (_ & Cq). assert (NC' : ~ clashes cls rs q) by (intros X; apply NC; exact (proj1 (clashes_iff rs (map fst pairs) q I) X)). destruct (clash_cases cls c rs q F Cq) as [(_ & c1 & F1 & U1)|(CL & _)]; [|contradiction].
    destruct (same_ranges cls c1 rs W F1 q U1) as (_ & _ & E & _). unfold prm_enclosed_by, rm_enclosed_by. cbn [range_set rng_to_val]. rewrite E. clear E. destruct (ranges_enclosed_by (map kv rs) q) as [l|e]; cbn [bind]; [|reflexivity].
    generalize (@nil V). induction l as [|k l IH]; intros acc; cbn [foldM]; [reflexivity|]. rewrite pget_same. destruct (idict_get (idict_of pairs) k) as [v|e]; cbn [bind]; [apply IH|reflexivity].
Qed.
(** C119: questions about a value or a range of another type than the map's raise TypeError, with these exceptions: get_from_rightmost_containing_or_below gives the value of a map whose only key has no lower bound, and
    get_enclosed_by gives no values if the range asked for encloses no key, each asked alone. *)
Theorem C119_other_type : forall (pairs : list (rng * V)) m, Forall (made cls) (map fst pairs) -> pimmutablerangemap plt eqb pairs = Ok m ->
  (forall x, (exists k z, In k (map fst pairs) /\ has_endpoint k z /\ cls z <> cls x) ->
     prm_contains plt eqb m x = Raise TypeError /\ prm_getitem plt eqb m x = Raise TypeError /\ prm_leftmost plt eqb m x = Raise TypeError /\
     (prm_rightmost plt eqb m x = Raise TypeError \/
      exists k v, (forall k', In k' (map fst pairs) <-> k' = k) /\ lower k = BelowAll /\ last_value pairs k = Some v /\ prm_rightmost plt eqb m x = Ok (Some v))) /\
  (forall q, made cls q -> clashes cls (map fst pairs) q ->
     (forall k, In k (map fst pairs) -> pencloses plt q k = Ok false) /\ prm_enclosed_by plt eqb veq m q = Ok [] \/
     (exists k, In k (map fst pairs) /\ pencloses plt q k = Raise TypeError) /\ prm_enclosed_by plt eqb veq m q = Raise TypeError).
Proof.
  intros pairs m M H. destruct (made_fine pairs m M H) as (rs & -> & W & (c & F) & I). split.
  - intros x (k & z & J & Z & Q). apply I in J. assert (Cz : cls z = c) by (rewrite Forall_forall in F; exact (proj1 (uni_spec cls c k) (F k J) z Z)). assert (N : c <> cls x) by congruence. assert (HE : exists m x, In m rs /\ has_endpoint m x) by eauto.
    destruct (other_contains cls c (cls x) rs W F N HE x eq_refl) as (A & B & C & D). unfold prm_contains, prm_getitem, prm_leftmost, prm_rightmost. cbn [range_set]. rewrite A, B, C. split; [reflexivity|]. split; [reflexivity|]. split; [reflexivity|].
    destruct D as [-> |(k1 & E1 & L1 & ->)]; [left; reflexivity|]. right. exists k1. assert (Ik : forall k', In k' (map fst pairs) <-> k' = k1) by (intros k'; rewrite <- I, E1; cbn; split; [intros [<-|[]]; reflexivity|intros ->; now left]).
    destruct (last_value_in pairs k1 (proj2 (Ik k1) eq_refl)) as (v & Ev). exists v. split; [exact Ik|]. split; [exact L1|]. split; [exact Ev|]. cbn [bind pvalue_of rng_to_val]. rewrite pget_same, idict_of_get, Ev. reflexivity.
  - intros q Mq CL. apply made_spec in Mq. destruct Mq as (FM & Cq). apply valid_factory in FM. apply (clashes_iff _ rs) in CL; [|intros k; symmetry; apply I]. destruct (clash_cases cls c rs q F Cq) as [(NC & _)|(_ & HE & HQ & c' & Uq & N)]; [contradiction|].
    unfold prm_enclosed_by. cbn [range_set]. destruct (other_enclosed_by cls c c' rs W F N HE q Uq HQ FM) as [(A & ->)|((k & J & A) & ->)].
    + left. split; [intros k J; apply A; now apply I|reflexivity].
    + right. split; [exists k; split; [now apply I|exact A]|reflexivity].
Qed.
(** C119: a map pickled and loaded, or made again from its items, is the same map, values of whatever type it is over. *)
Theorem C119_rebuilt : forall (pairs : list (rng * V)) m, Forall (made cls) (map fst pairs) -> pimmutablerangemap plt eqb pairs = Ok m -> pimmutablerangemap plt eqb (reduce_state m) = Ok m.
Proof.
  intros pairs m M H. assert (H' := H). apply (proj1 (C119_made pairs M)) in H'. destruct H' as (OT & H').
  assert (Kr : forall k, In k (map fst (reduce_state m)) -> In k (map fst pairs)).
  { intros k J. destruct (made_fine pairs m M H) as (rs & -> & _). unfold reduce_state, as_dict in J. cbn [rng_to_val] in J. destruct (rm_is_empty _); [destruct J|]. exact (proj1 (idict_of_keys pairs k) J). }
  assert (Mr : Forall (made cls) (map fst (reduce_state m))) by (rewrite Forall_forall in *; auto).
  apply (proj1 (C119_made _ Mr)). split; [exact (one_type_incl _ _ Kr OT)|].
  refine (C26_reduce_round_trip T O V pairs m _ H'). apply Forall_forall. intros k J. rewrite Forall_forall in M. specialize (M k J). apply made_spec in M. apply M.
Qed.
End MixedMaps.
