(** * Property theorems about Parameters (parameters.py).  C41-C47, C54.

    The vocabulary ([view], [leaves], [prune], [decided], [merge1], [clash], [Stored], [Absent],
    [Candidate], [writable], [printable]) is defined in ParamsSpec.v without reference to the code's
    functions.  [wf_params p] holds of every Parameters object made by from_mapping,
    from_key_value_pairs and unify (proved below). *)
From Verif Require Import Prelude PyStr Order Range Params ParamsSpec ParamsProofs ParamsUnify ParamsPairs ParamsGet.

(** C41: nested dict -> Parameters -> nested dict. *)
Theorem C41_roundtrip : forall m prefix, plain (PMap m) ->
  (forall k, nested_key (PMap m) k -> dotless k) ->
  exists p, from_mapping (PMap m) prefix = Ok p /\ wf_params p /\ dictify p = PMap m /\
    (forall q, view p q = view (PMap m) q).
Proof.
  intros m prefix P D. destruct (from_value_total _ D prefix) as (p & E). exists p. split; [exact E|]. split.
  - split; [eapply from_value_gives_wf; [apply plain_mixed; exact P|exact E]|apply (from_value_is_params _ _ _ E)].
  - split; [eapply from_value_dictify; eauto|]. now apply (from_value_view _ _ _ E).
Qed.
Print Assumptions C41_roundtrip.
Theorem C41_dots_rejected : forall m prefix,
  (from_mapping (PMap m) prefix = Raise ValueError <-> exists k, nested_key (PMap m) k /\ In dot k) /\
  (forall e, from_mapping (PMap m) prefix = Raise e -> e = ValueError).
Proof.
  intros m prefix. unfold from_mapping. split; [split|].
  - intros E. now destruct (from_value_raise _ _ _ E).
  - intros (k & K & D). destruct (from_value prefix (PMap m)) as [p|e] eqn:E.
    + now destruct (from_value_nodots _ _ _ E k K).
    + now destruct (from_value_raise _ _ _ E) as (-> & _).
  - intros e E. now destruct (from_value_raise _ _ _ E).
Qed.
Print Assumptions C41_dots_rejected.
Theorem C41_not_a_mapping : forall v prefix, (forall m, v <> PMap m) -> from_mapping v prefix = Raise TypeError.
Proof. intros v prefix H. destruct v; try reflexivity. now destruct (H m). Qed.
Print Assumptions C41_not_a_mapping.
(** Every namespace knows its own dotted prefix. *)
Theorem C41_prefixes : forall m prefix p, plain (PMap m) -> from_mapping (PMap m) prefix = Ok p ->
  forall q pre d, reaches p q (PParams pre d) -> pre = prefix ++ q.
Proof.
  intros m prefix p P E q pre d R. unfold from_mapping in E. revert prefix P E.
  generalize (PMap m) as v. remember (PParams pre d) as t eqn:Et. induction R as [t|pa da k x q t I R IH]; intros v prefix P E; subst.
  - destruct v; try discriminate; [|now simpl in P]. apply from_value_is_params in E. simpl in E. rewrite app_nil_r. symmetry. symmetry. tauto.
  - destruct v as [| | | | | | | |mm| |]; try (simpl in E; discriminate); [|now simpl in P].
    rewrite from_value_map in E. apply bind_ok in E. destruct E as (d' & E & F). destruct (mk_params_spec _ _ _ F) as [[D X]|[_ X]]; [|discriminate]. injection X as -> ->.
    apply plain_map in P. destruct P as [N P].
    pose proof (from_item_keys _ _ _ E) as K. pose proof (from_item_find _ _ _ E k) as G.
    assert (dfind d' k = Some x) as Ex by (apply in_dfind; [now rewrite K|assumption]).
    destruct (dfind mm k) as [y|] eqn:Ey; [|congruence]. destruct G as (z & G1 & G2). rewrite Ex in G2. injection G2 as <-.
    assert (pre = (prefix ++ [k]) ++ q) as ->; [|now rewrite <- app_assoc]. apply (IH eq_refl y); [|assumption].
    rewrite Forall_forall in P. apply (P _ (dfind_in _ _ _ Ey)).
Qed.
Print Assumptions C41_prefixes.
Definition ex_tree : pv := PMap [(!!"a", PMap [(!!"b", PInt 1); (!!"e", PMap [])]); (!!"", PStr !!"x")].
Example C41_witness : plain ex_tree /\ (forall k, nested_key ex_tree k -> dotless k) /\
  from_mapping (PMap [(!!"a", PMap [(!!"b.c", PInt 1)])]) [] = Raise ValueError.
Proof.
  split; [|split; [|reflexivity]].
  - simpl. repeat split; repeat constructor; simpl; intuition discriminate.
  - intros k H. assert (forall P : str -> Prop, P !!"a" -> P !!"b" -> P !!"e" -> P !!"" -> P k) as G.
    { intros P Ha Hb He Hn. inversion H as [m k' x I|m k' x k2 I K]; subst; simpl in I.
      - destruct I as [E|[E|[]]]; injection E; intros; subst; assumption.
      - destruct I as [E|[E|[]]]; injection E; intros; subst; [|inversion K].
        inversion K as [m k' x I|m k' x k2 I K2]; subst; simpl in I; destruct I as [E2|[E2|[]]]; injection E2; intros; subst; try assumption; inversion K2; subst; match goal with F : In _ [] |- _ => destruct F end. }
    apply G; intros D; simpl in D; intuition discriminate.
Qed.

(** C42: key/value pairs. *)
Theorem C42_from_pairs : forall kvs sep, Forall (fun kv => is_leaf (snd kv)) kvs ->
  let es := map (fun kv => (py_split sep (fst kv), snd kv)) kvs in
  match from_key_value_pairs kvs sep with
  | Ok p => wf_params p /\ Forall (fun kv => fst kv <> []) kvs /\ no_extension es /\
            (forall q k, decided (rev es) (q ++ [k]) <> None -> dotless k) /\
            forall q, view p q = decided (rev es) q
  | Raise RuntimeError => Exists (fun kv => fst kv = []) kvs
  | Raise TypeError => ~ no_extension es
  | Raise ValueError => exists q k, decided (rev es) (q ++ [k]) <> None /\ In dot k
  | Raise _ => False
  end.
Proof.
  intros kvs sep L. pose proof (from_pairs_correct kvs sep L) as H. simpl. destruct (from_key_value_pairs kvs sep); [|exact H]. tauto.
Qed.
Print Assumptions C42_from_pairs.
(** With the default separator it succeeds exactly when no key is empty and no key goes below a key
    that was given a value earlier. *)
Theorem C42_success : forall kvs, Forall (fun kv => is_leaf (snd kv)) kvs ->
  let es := map (fun kv => (py_split dot (fst kv), snd kv)) kvs in
  ((exists p, from_key_value_pairs kvs dot = Ok p) <-> Forall (fun kv => fst kv <> []) kvs /\ no_extension es).
Proof.
  intros kvs L es. pose proof (C42_from_pairs kvs dot L) as H. simpl in H. fold es in H. split.
  - intros (p & E). rewrite E in H. tauto.
  - intros [NE NX]. destruct (from_key_value_pairs kvs dot) as [p|e]; [eauto|]. exfalso. destruct e; try contradiction.
    + destruct H as (q & k & H & D). apply decided_component in H. destruct H as (p & v & I & J). apply in_rev in I. unfold es in I.
      apply in_map_iff in I. destruct I as (kv & E & _). injection E as <- _. exact (py_split_parts _ _ _ J D).
    + rewrite Forall_forall in NE. apply Exists_exists in H. destruct H as (kv & I & E). exact (NE _ I E).
Qed.
Print Assumptions C42_success.
(** The last value given for a key is the one found, when nothing later replaced a namespace above it. *)
Theorem C42_last_wins : forall kvs1 key v kvs2 p,
  Forall (fun kv => is_leaf (snd kv)) (kvs1 ++ (key, v) :: kvs2) ->
  from_key_value_pairs (kvs1 ++ (key, v) :: kvs2) dot = Ok p ->
  (forall k' v', In (k', v') kvs2 -> ~ prefix_of (py_split dot k') (py_split dot key)) ->
  Stored p key v.
Proof.
  intros kvs1 key v kvs2 p L E H. pose proof (C42_from_pairs _ dot L) as K. simpl in K. rewrite E in K. destruct K as ([W _] & NE & NX & _ & V).
  apply stored_walk; [assumption|]. apply view_leaf_walk; [|assumption]. rewrite V. rewrite map_app, rev_app_distr. cbn [map rev fst snd]. rewrite <- app_assoc.
  assert (G : forall l r, (forall e, In e l -> ~ prefix_of (fst e) (py_split dot key)) -> (forall e, In e l -> ~ proper_prefix (py_split dot key) (fst e)) ->
     decided (l ++ r) (py_split dot key) = decided r (py_split dot key)).
  { induction l as [|[q w] l IH]; intros r H1 H2; [reflexivity|]. cbn [app decided]. destruct (is_prefix q (py_split dot key)) eqn:F1.
    - apply is_prefix_spec in F1. now destruct (H1 (q, w) (or_introl eq_refl)).
    - destruct (is_prefix (py_split dot key) q) eqn:F2.
      + exfalso. pose proof F2 as F3. apply is_prefix_spec in F3. destruct F3 as (r' & ->). destruct r' as [|x r']; [rewrite app_nil_r, is_prefix_refl in F1; discriminate|].
        apply (H2 (py_split dot key ++ x :: r', w) (or_introl eq_refl)). now exists x, r'.
      + apply IH; intros; [apply H1|apply H2]; simpl; auto. }
  rewrite G.
  - cbn [app decided]. now rewrite is_prefix_refl.
  - intros e I. apply in_rev in I. apply in_map_iff in I. destruct I as ([k' v'] & <- & I). simpl. eauto.
  - intros e I PP. apply in_rev in I. apply in_split in I. destruct I as (l1 & l2 & I).
    destruct e as [q w]. apply (NX (map (fun kv => (py_split dot (fst kv), snd kv)) kvs1) (py_split dot key) v l1 q w l2); [|exact PP].
    rewrite map_app. cbn [map fst snd]. now rewrite I.
Qed.
Print Assumptions C42_last_wins.
(** namespaced_items lists every leaf once, in order, under its dotted path. *)
Theorem C42_items : forall m p, plain (PMap m) -> from_mapping (PMap m) [] = Ok p ->
  namespaced_items p = map (fun e => (dotted (fst e), snd e)) (leaves (PMap m)).
Proof. intros m p P E. apply (namespaced_items_from (PMap m) [] p P E). apply (from_value_is_params _ _ _ E). Qed.
Print Assumptions C42_items.
(** Round trip: rebuilding from the items gives the same parameters without empty namespaces. *)
Lemma nested_key_dotless_leaves t : plain t -> (forall k, nested_key t k -> dotless k) -> forall e, In e (leaves t) -> forall k, In k (fst e) -> dotless k.
Proof.
  induction t using pv_ind_nested; intros P D e I k K; try (simpl in I; destruct I as [<-|[]]; destruct K); [|now simpl in P].
  cbn [leaves] in I. apply in_flat_map in I. destruct I as ([k0 x] & I0 & I). apply in_map_iff in I. destruct I as (e' & <- & I). cbn [fst snd] in *.
  destruct K as [<-|K]; [apply D; eapply nk_here; eauto|]. apply plain_map in P. destruct P as [_ P]. rewrite Forall_forall in H, P.
  apply (H _ I0 (P _ I0)) with (e := e'); [|assumption|assumption]. intros k1 K1. apply D. eapply nk_there; eauto.
Qed.
Lemma prune_plain t : plain t -> plain (prune t).
Proof.
  induction t using pv_ind_nested; intros P; try exact I; [|now simpl in P]. apply plain_map in P. destruct P as [N P]. cbn [prune]. apply plain_map. split.
  - unfold keys in *. clear H P. induction m as [|[k x] m IH]; simpl; [constructor|]. inversion N as [|? ? N1 N2]; subst. destruct (negb _); [|auto]. simpl. constructor; [|auto].
    intros K. apply N1. apply in_map_iff in K. destruct K as (kv & <- & K). apply filter_In in K. destruct K as [K _]. apply in_map_iff in K. destruct K as (kv' & <- & K). simpl. now apply in_map.
  - apply Forall_forall. intros kv K. apply filter_In in K. destruct K as [K _]. apply in_map_iff in K. destruct K as ([k x] & <- & K). simpl.
    rewrite Forall_forall in H, P. apply (H _ K). apply (P _ K).
Qed.
Lemma prune_nested_key t k : nested_key (prune t) k -> nested_key t k.
Proof.
  revert k. induction t using pv_ind_nested; intros k0 K; try (inversion K; fail). cbn [prune] in K. inversion K as [? ? x I|? k1 x ? I K']; subst.
  - apply filter_In in I. destruct I as [I _]. apply in_map_iff in I. destruct I as ([k x'] & E & I). injection E as <- _. eapply nk_here; eauto.
  - apply filter_In in I. destruct I as [I _]. apply in_map_iff in I. destruct I as ([k x'] & E & I). injection E as <- <-. eapply nk_there; [eauto|].
    rewrite Forall_forall in H. exact (H _ I _ K').
Qed.
Theorem C42_roundtrip : forall m p, plain (PMap m) -> from_mapping (PMap m) [] = Ok p ->
  (forall v, In ([[]], v) (leaves (PMap m)) -> False) ->        (* no top-level leaf is called "" *)
  exists p', from_key_value_pairs (namespaced_items p) dot = Ok p' /\ dictify p' = prune (PMap m) /\
             from_mapping (prune (PMap m)) [] = Ok p'.
Proof.
  intros m p P E NE. pose proof (from_value_nodots _ _ _ E) as D. rewrite fkvp_eq. rewrite (C42_items m p P E).
  destruct (fold_leaves (PMap m) m eq_refl P [] (fun _ F => match F with end)) as (m' & E1 & E2). cbn [app] in E2.
  assert (fold_pairs dot (map (fun e => (dotted (fst e), snd e)) (leaves (PMap m))) = Ok m') as ->.
  { rewrite <- E2. pose proof (leaves_nonempty m) as LN. pose proof (nested_key_dotless_leaves _ P D) as LD. unfold fold_pairs.
    generalize (@nil (str * pv)) as d. revert LN LD NE. generalize (leaves (PMap m)) as l. induction l as [|[q v] l IH]; intros LN LD NE d; [reflexivity|].
    inversion LN as [|? ? Lq LN']; subst. cbn [map foldM fst snd] in *.
    assert (step dot d (dotted q, v) = ins d (q, v)) as ->.
    { unfold step, ins. cbn [fst snd]. assert (py_split dot (dotted q) = q) as ->. { apply py_join_split; [assumption|]. intros k K. apply (LD (q, v)); simpl; auto. }
      destruct (dotted q) eqn:F; [|reflexivity]. exfalso. apply (NE v). left. f_equal. destruct q as [|a [|b q]]; [congruence| |].
      - unfold dotted in F. simpl in F. now rewrite F.
      - change (dotted (a :: b :: q)) with (a ++ dot :: dotted (b :: q)) in F. destruct a; discriminate. }
    destruct (ins d (q, v)); [|reflexivity]. simpl. apply IH; [assumption| |].
    - intros e I. apply LD. simpl; auto.
    - intros v' I. apply (NE v'). simpl; auto. }
  cbn [bind]. destruct (from_value_total (PMap m')) with (pre := @nil str) as (p' & E').
  { intros k K. apply D. apply prune_nested_key. now rewrite E1. }
  exists p'. split; [exact E'|]. rewrite E1. split; [|exact E']. eapply from_value_dictify; [|exact E']. rewrite <- E1. now apply prune_plain.
Qed.
Print Assumptions C42_roundtrip.
(** Without that side condition the round trip fails: a top-level parameter called "". *)
Theorem C42_empty_name_refuted : exists p, from_mapping (PMap [([], PInt 1)]) [] = Ok p /\
  from_key_value_pairs (namespaced_items p) dot = Raise RuntimeError.
Proof. eexists. split; reflexivity. Qed.
Print Assumptions C42_empty_name_refuted.
(** After p.namespace("a").unify({"d": 2}), namespaced_items mixes two prefixes: "b.c" is reported as
    "a.b.c" but the sibling "d" as "d". *)
Theorem C42_unify_prefix_refuted : exists p a r,
  from_mapping (PMap [(!!"a", PMap [(!!"b", PMap [(!!"c", PInt 1)])])]) [] = Ok p /\
  namespace p !!"a" = Ok a /\ unify_with a (PMap [(!!"d", PInt 2)]) [] = Ok r /\
  view r [!!"b"; !!"c"] = Some (Leaf (PInt 1)) /\
  namespaced_items r = [(!!"a.b.c", PInt 1); (!!"d", PInt 2)].
Proof. do 3 eexists. repeat split. Qed.
Print Assumptions C42_unify_prefix_refuted.
Example C42_witness : exists p p', from_mapping ex_tree [] = Ok p /\ namespaced_items p = [(!!"a.b", PInt 1); ([], PStr !!"x")] /\
  from_key_value_pairs [(!!"a.b", PInt 1); (!!"c", PInt 5); (!!"a.d", PNone); (!!"a.b", PInt 2)] dot = Ok p' /\
  dictify p' = PMap [(!!"a", PMap [(!!"b", PInt 2); (!!"d", PNone)]); (!!"c", PInt 5)].
Proof. do 2 eexists. repeat split. Qed.

(** C43: lookup. *)
Theorem C43_lookup : forall p name, wf_params p ->
  (forall v, Stored p name v -> get p name is_object PNone = Ok v /\ get_optional p name is_object PNone = Ok v /\
             (contains p name = true <-> v <> PNone) /\ (has_namespace p name = true <-> is_params v = true)) /\
  (Absent p name -> get p name is_object PNone = Raise ParameterError /\ get_optional p name is_object PNone = Ok PNone /\
                    contains p name = false /\ has_namespace p name = false) /\
  (forall d, d <> PNone -> Absent p name -> get p name is_object d = Ok d /\ get_optional p name is_object d = Ok d).
Proof.
  intros p name [W _]. repeat split.
  - apply (get_spec p name is_object PNone W); [now constructor|reflexivity].
  - destruct (is_none v) eqn:N.
    + apply is_none_eq in N. subst. apply (get_optional_spec p name is_object PNone W). auto.
    + apply is_none_neq in N. now apply (get_optional_spec p name is_object PNone W).
  - intros C. apply (contains_spec _ _ W) in C. destruct C as (w & S1 & N). now rewrite (stored_unique _ _ _ _ W H S1).
  - intros N. apply contains_spec; eauto.
  - unfold has_namespace. rewrite (proj1 (private_get_spec p name true PNone W) v (cand_stored _ _ _ _ H)). auto.
  - unfold has_namespace. rewrite (proj1 (private_get_spec p name true PNone W) v (cand_stored _ _ _ _ H)). auto.
  - apply (get_spec p name is_object PNone W). now apply no_candidate.
  - apply (get_optional_spec p name is_object PNone W). auto.
  - apply contains_false; auto.
  - unfold has_namespace. rewrite (proj2 (private_get_spec p name true PNone W)); [reflexivity|]. now apply no_candidate.
  - apply (get_spec p name is_object d W); [|reflexivity]. now apply cand_default.
  - apply (get_optional_spec p name is_object d W). auto.
Qed.
Print Assumptions C43_lookup.
(** A name built from dot-free components is looked up along exactly those components; what is stored
    in Parameters built from a dict is what the dict has there; stored values are unique. *)
Theorem C43_dotted_path : forall comps, comps <> [] -> (forall c, In c comps -> dotless c) ->
  forall p v, Stored p (dotted comps) v <-> reaches p comps v.
Proof. intros comps NE D p v. unfold Stored, dotted. now rewrite py_join_split. Qed.
Print Assumptions C43_dotted_path.
Theorem C43_from_mapping : forall m prefix p q, plain (PMap m) -> from_mapping (PMap m) prefix = Ok p ->
  (forall v, is_leaf v -> (reaches p q v <-> view (PMap m) q = Some (Leaf v))) /\
  ((exists pre d, reaches p q (PParams pre d)) <-> view (PMap m) q = Some Namespace).
Proof.
  intros m prefix p q P E. assert (W : wf p) by (eapply from_value_gives_wf; [apply plain_mixed; exact P|exact E]).
  rewrite <- (from_value_view _ _ _ E q). rewrite walk_view by assumption. split.
  - intros v L. rewrite <- walk_reaches by assumption. destruct (walk p q) as [w|]; [|split; discriminate].
    destruct (is_params w) eqn:Q; [split; [|discriminate]; intros H; injection H as ->; destruct v; try discriminate; contradiction L|].
    split; intros H; injection H as ->; reflexivity.
  - split.
    + intros (pre & d & R). apply (walk_reaches _ _ _ W) in R. now rewrite R.
    + destruct (walk p q) as [w|] eqn:F; [|discriminate]. destruct w; try discriminate. intros _. exists prefix0, data. now apply walk_reaches.
Qed.
Print Assumptions C43_from_mapping.
Example C43_witness : exists p, from_mapping ex_tree [] = Ok p /\ wf_params p /\ Stored p !!"a.b" (PInt 1) /\ Absent p !!"a.b.c" /\ Absent p !!"q.r".
Proof.
  eexists. split; [reflexivity|]. assert (W : wf_params (PParams [] [(!!"a", PParams [!!"a"] [(!!"b", PInt 1); (!!"e", PParams [!!"a"; !!"e"] [])]); (!!"", PStr !!"x")])).
  { split; [|reflexivity]. simpl. repeat split; repeat constructor; simpl; unfold dotless; simpl; intuition discriminate. }
  split; [exact W|]. destruct W as [W _]. split; [now apply stored_walk|]. split; now apply absent_walk.
Qed.

(** C44: unify. *)
Theorem C44_unify : forall old new prefix, wf_params old -> wf_params new ->
  match unify old new prefix with
  | Ok r => wf_params r /\ params_prefix r = prefix /\ (forall q, view r q = merge1 (view old q) (view new q)) /\
            (forall q, ~ clash old new q)
  | Raise e => e = IOError /\ exists q, clash old new q
  end.
Proof. intros old new prefix Wo Wn. exact (unify_correct old new prefix Wo Wn). Qed.
Print Assumptions C44_unify.
(** In words: new's non-null leaves win, old's other leaves stay, nothing else appears. *)
Theorem C44_consequences : forall old new prefix r, wf_params old -> wf_params new -> unify old new prefix = Ok r ->
  (forall q v, v <> PNone -> view new q = Some (Leaf v) -> view r q = Some (Leaf v)) /\
  (forall q v, view old q = Some (Leaf v) -> (view new q = None \/ view new q = Some (Leaf PNone)) -> view r q = Some (Leaf v)) /\
  (forall q, view r q = Some Namespace <-> view old q = Some Namespace \/ view new q = Some Namespace) /\
  (forall q v, view r q = Some (Leaf v) -> view old q = Some (Leaf v) \/ view new q = Some (Leaf v)) /\
  (forall q, view r q = None <-> view old q = None /\ view new q = None).
Proof.
  intros old new prefix r Wo Wn E. pose proof (C44_unify old new prefix Wo Wn) as H. rewrite E in H. destruct H as (_ & _ & V & NC). unfold clash in NC. repeat split.
  - intros q v N H. rewrite V, H. simpl. destruct v; congruence.
  - intros q v H [K|K]; rewrite V, H, K; reflexivity.
  - rewrite V. destruct (view new q) as [[|v]|]; simpl; auto. destruct v; try discriminate. destruct (view old q) as [[|]|]; auto; discriminate.
  - intros [K|K]; rewrite V; specialize (NC q).
    + rewrite K in *. destruct (view new q) as [[|v]|]; try reflexivity. destruct (is_none v) eqn:F; [apply is_none_eq in F; subst; reflexivity|].
      apply is_none_neq in F. exfalso. apply NC. right. exists v. auto.
    + rewrite K. reflexivity.
  - intros q v H. rewrite V in H. destruct (view new q) as [[|w]|]; simpl in H; auto. destruct w; auto. destruct (view old q); auto.
  - rewrite V in H. destruct (view new q) as [[|v]|]; simpl in H; try discriminate; auto. destruct v; try discriminate. destruct (view old q); try discriminate.
  - rewrite V in H. destruct (view new q) as [[|v]|]; simpl in H; try discriminate; auto. destruct v; try discriminate. destruct (view old q); try discriminate.
  - intros [H K]. rewrite V, H, K. reflexivity.
Qed.
Print Assumptions C44_consequences.
Lemma wf_empty prefix : wf_params (PParams prefix []).
Proof. split; [|reflexivity]. apply wf_map. repeat split; constructor. Qed.
Lemma view_empty prefix q : view (PParams prefix []) q = match q with [] => Some Namespace | _ => None end.
Proof. destruct q; reflexivity. Qed.
Theorem C44_identity : forall p prefix, wf_params p ->
  exists e r l, empty_params [] = Ok e /\ unify p e prefix = Ok r /\ unify e p prefix = Ok l /\
    (forall q, view r q = view p q) /\ (forall q, view l q = view p q).
Proof.
  intros p prefix W. exists (PParams [] []).
  assert (R : view p [] = Some Namespace) by (destruct W as [_ W]; destruct p; reflexivity || discriminate).
  pose proof (C44_unify p (PParams [] []) prefix W (wf_empty [])) as H1. pose proof (C44_unify (PParams [] []) p prefix (wf_empty []) W) as H2.
  destruct (unify p (PParams [] []) prefix) as [r|e1]; destruct (unify (PParams [] []) p prefix) as [l|e2].
  - exists r, l. destruct H1 as (_ & _ & V1 & _), H2 as (_ & _ & V2 & _). repeat split.
    + intros q. rewrite V1, view_empty. destruct q; [now rewrite R|reflexivity].
    + intros q. rewrite V2, view_empty. destruct q as [|k0 q]; [now rewrite R|]. destruct (view p (k0 :: q)) as [[|[]]|]; reflexivity.
  - exfalso. destruct H2 as (_ & q & [(v & A & B)|(v & A & B & N)]); rewrite view_empty in *; destruct q; try discriminate; congruence.
  - exfalso. destruct H1 as (_ & q & [(v & A & B)|(v & A & B & N)]); rewrite view_empty in *; destruct q; try discriminate; congruence.
  - exfalso. destruct H1 as (_ & q & [(v & A & B)|(v & A & B & N)]); rewrite view_empty in *; destruct q; try discriminate; congruence.
Qed.
Print Assumptions C44_identity.
Theorem C44_associative : forall a b c ab bc l r x y z w, wf_params a -> wf_params b -> wf_params c ->
  unify a b x = Ok ab -> unify ab c y = Ok l -> unify b c z = Ok bc -> unify a bc w = Ok r ->
  forall q, view l q = view r q.
Proof.
  intros a b c ab bc l r x y z w Wa Wb Wc E1 E2 E3 E4 q.
  pose proof (C44_unify a b x Wa Wb) as H1. rewrite E1 in H1. destruct H1 as (Wab & _ & V1 & _).
  pose proof (C44_unify ab c y Wab Wc) as H2. rewrite E2 in H2. destruct H2 as (_ & _ & V2 & _).
  pose proof (C44_unify b c z Wb Wc) as H3. rewrite E3 in H3. destruct H3 as (Wbc & _ & V3 & _).
  pose proof (C44_unify a bc w Wa Wbc) as H4. rewrite E4 in H4. destruct H4 as (_ & _ & V4 & _).
  rewrite V2, V1, V4, V3. unfold merge1. destruct (view a q) as [[|[]]|], (view b q) as [[|[]]|], (view c q) as [[|[]]|]; reflexivity.
Qed.
Print Assumptions C44_associative.
(** Without nulls unify is associative outright: both groupings succeed or both fail. *)
Definition no_nulls (p : pv) : Prop := forall q, view p q <> Some (Leaf PNone).
Lemma unify_ok_iff a b x : wf_params a -> wf_params b -> ((exists r, unify a b x = Ok r) <-> forall q, ~ clash a b q).
Proof.
  intros Wa Wb. pose proof (C44_unify a b x Wa Wb) as H. destruct (unify a b x); split; intros K; [tauto|eauto|destruct K; discriminate|].
  destruct H as (_ & q & C). now destruct (K q).
Qed.
Lemma view_blocked p q k : view p (q ++ [k]) <> None -> view p q = Some Namespace.
Proof.
  revert p. induction q as [|a q IH]; intros p; simpl.
  - destruct p; simpl; congruence.
  - destruct p; try congruence; destruct (dfind _ a); try congruence; apply IH.
Qed.
Definition clash1 (x y : option found) : bool :=
  match x, y with
  | Some (Leaf _), Some Namespace => true
  | Some Namespace, Some (Leaf v) => negb (is_none v)
  | _, _ => false
  end.
Lemma clash_clash1 a b q : clash a b q <-> clash1 (view a q) (view b q) = true.
Proof.
  unfold clash. destruct (view a q) as [[|va]|], (view b q) as [[|vb]|]; simpl; split; try discriminate;
    try (intros [(v & A & B)|(v & A & B & N)]; discriminate).
  - intros [(v & A & B)|(v & A & B & N)]; [discriminate|]. injection B as ->. apply is_none_neq in N. now rewrite N.
  - intros H. right. exists vb. repeat split. apply is_none_neq. now destruct (is_none vb).
  - reflexivity.
  - intros _. left. exists va. auto.
Qed.
Lemma merge1_nonnull x v : is_none v = false -> merge1 x (Some (Leaf v)) = Some (Leaf v).
Proof. destruct v; try reflexivity. discriminate. Qed.
Theorem C44_associative_errors : forall a b c x y z w, wf_params a -> wf_params b -> wf_params c ->
  no_nulls a -> no_nulls b -> no_nulls c ->
  ((exists ab l, unify a b x = Ok ab /\ unify ab c y = Ok l) <-> (exists bc r, unify b c z = Ok bc /\ unify a bc w = Ok r)).
Proof.
  intros a b c x y z w Wa Wb Wc Na Nb Nc.
  assert (L : (exists ab l, unify a b x = Ok ab /\ unify ab c y = Ok l) <->
     forall q, clash1 (view a q) (view b q) = false /\ clash1 (merge1 (view a q) (view b q)) (view c q) = false).
  { split.
    - intros (ab & l & E1 & E2) q. pose proof (C44_unify a b x Wa Wb) as H1. rewrite E1 in H1. destruct H1 as (Wab & _ & V1 & N1).
      pose proof (C44_unify ab c y Wab Wc) as H2. rewrite E2 in H2. destruct H2 as (_ & _ & _ & N2).
      specialize (N1 q). specialize (N2 q). rewrite clash_clash1 in N1, N2. rewrite V1 in N2. split; now apply not_true_is_false.
    - intros H. destruct (proj2 (unify_ok_iff a b x Wa Wb)) as (ab & E1); [intros q C; apply clash_clash1 in C; destruct (H q); congruence|].
      pose proof (C44_unify a b x Wa Wb) as H1. rewrite E1 in H1. destruct H1 as (Wab & _ & V1 & N1).
      destruct (proj2 (unify_ok_iff ab c y Wab Wc)) as (l & E2); [|eauto]. intros q C. apply clash_clash1 in C. rewrite V1 in C. destruct (H q); congruence. }
  assert (R : (exists bc r, unify b c z = Ok bc /\ unify a bc w = Ok r) <->
     forall q, clash1 (view b q) (view c q) = false /\ clash1 (view a q) (merge1 (view b q) (view c q)) = false).
  { split.
    - intros (bc & l & E1 & E2) q. pose proof (C44_unify b c z Wb Wc) as H1. rewrite E1 in H1. destruct H1 as (Wbc & _ & V1 & N1).
      pose proof (C44_unify a bc w Wa Wbc) as H2. rewrite E2 in H2. destruct H2 as (_ & _ & _ & N2).
      specialize (N1 q). specialize (N2 q). rewrite clash_clash1 in N1, N2. rewrite V1 in N2. split; now apply not_true_is_false.
    - intros H. destruct (proj2 (unify_ok_iff b c z Wb Wc)) as (bc & E1); [intros q C; apply clash_clash1 in C; destruct (H q); congruence|].
      pose proof (C44_unify b c z Wb Wc) as H1. rewrite E1 in H1. destruct H1 as (Wbc & _ & V1 & N1).
      destruct (proj2 (unify_ok_iff a bc w Wa Wbc)) as (l & E2); [|eauto]. intros q C. apply clash_clash1 in C. rewrite V1 in C. destruct (H q); congruence. }
  rewrite L, R.
  assert (NN : forall t q v, no_nulls t -> view t q = Some (Leaf v) -> is_none v = false).
  { intros t q v H E. apply is_none_neq. intros ->. exact (H q E). }
  (* no clash at q between a tree with a leaf and one with a namespace: kinds are decided pointwise,
     and a blocked path has no clash below it *)
  split; intros H q; specialize (H q); revert H;
    destruct (view a q) as [[|va]|] eqn:Ea, (view b q) as [[|vb]|] eqn:Eb, (view c q) as [[|vc]|] eqn:Ec;
    try (pose proof (NN _ _ _ Na Ea)); try (pose proof (NN _ _ _ Nb Eb)); try (pose proof (NN _ _ _ Nc Ec));
    rewrite ?merge1_nonnull by assumption; cbn [merge1 clash1]; repeat match goal with F : is_none _ = false |- _ => rewrite F; clear F end; simpl; tauto.
Qed.
Print Assumptions C44_associative_errors.
(** With a null in the middle only one grouping succeeds. *)
Theorem C44_associative_refuted : exists a b c ab l, wf_params a /\ wf_params b /\ wf_params c /\
  unify a b [] = Ok ab /\ unify ab c [] = Ok l /\ unify b c [] = Raise IOError.
Proof.
  exists (PParams [] [(!!"k", PParams [!!"k"] [])]), (PParams [] [(!!"k", PNone)]), (PParams [] [(!!"k", PParams [!!"k"] [])]).
  do 2 eexists. repeat split; try (repeat constructor; simpl; unfold dotless; simpl; intuition discriminate).
Qed.
Print Assumptions C44_associative_refuted.
Example C44_witness : exists a b r, from_mapping (PMap [(!!"x", PMap [(!!"y", PInt 1); (!!"z", PInt 2)]); (!!"u", PNone)]) [] = Ok a /\
  from_mapping (PMap [(!!"x", PMap [(!!"z", PInt 3); (!!"y", PNone)]); (!!"w", PInt 4)]) [] = Ok b /\ unify a b [] = Ok r /\
  dictify r = PMap [(!!"x", PMap [(!!"y", PInt 1); (!!"z", PInt 3)]); (!!"u", PNone); (!!"w", PInt 4)].
Proof. do 3 eexists. repeat split. Qed.

(** C45 *)
Theorem C45_exactly_one : forall p names, wf_params p ->
  (assert_exactly_one_present p names = Ok tt <->
     exists l1 n l2, names = l1 ++ n :: l2 /\ (exists v, Stored p n v /\ v <> PNone) /\
       forall n', In n' (l1 ++ l2) -> (Absent p n' \/ Stored p n' PNone)) /\
  (assert_exactly_one_present p names = Ok tt \/ assert_exactly_one_present p names = Raise ParameterError).
Proof.
  intros p names [W _]. unfold assert_exactly_one_present. split.
  2:{ destruct (filter _ names) as [|a [|b l]]; auto. }
  assert (FN : forall l, filter (contains p) l = [] <-> forall n, In n l -> contains p n = false).
  { induction l as [|a l IH]; simpl; [tauto|]. destruct (contains p a) eqn:E.
    - split; [discriminate|]. intros H. rewrite (H a) in E; auto; discriminate.
    - rewrite IH. split; [intros H n [<-|I]; auto|auto]. }
  split.
  - intros H. destruct (filter (contains p) names) as [|n [|n2 l]] eqn:F; try discriminate. clear H.
    assert (exists l1 l2, names = l1 ++ n :: l2 /\ filter (contains p) l1 = [] /\ filter (contains p) l2 = [] /\ contains p n = true) as (l1 & l2 & -> & F1 & F2 & Cn).
    { revert F. induction names as [|a names IH]; simpl; [discriminate|]. destruct (contains p a) eqn:Ca.
      - intros F; injection F as -> F. exists [], names. auto.
      - intros F. destruct (IH F) as (l1 & l2 & -> & G1 & G2 & G3). exists (a :: l1), l2. simpl. rewrite Ca. auto. }
    exists l1, n, l2. split; [reflexivity|]. split; [now apply contains_spec|]. intros n' I. apply contains_false; [assumption|].
    apply in_app_iff in I. rewrite FN in F1, F2. destruct I; auto.
  - intros (l1 & n & l2 & -> & Hn & H). rewrite filter_app. simpl. apply (contains_spec _ _ W) in Hn. rewrite Hn.
    rewrite (proj2 (FN l1)), (proj2 (FN l2)); [reflexivity| |]; intros n' I; apply contains_false; auto; apply H; apply in_app_iff; auto.
Qed.
Print Assumptions C45_exactly_one.
Example C45_witness : exists p, from_mapping ex_tree [] = Ok p /\ assert_exactly_one_present p [!!"q"; !!"a.b"; !!"z"] = Ok tt /\
  assert_exactly_one_present p [!!"a"; !!"a.b"] = Raise ParameterError /\ assert_exactly_one_present p [] = Raise ParameterError.
Proof. eexists. repeat split. Qed.
