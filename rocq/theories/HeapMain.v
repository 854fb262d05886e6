(** * C104: Parameters objects are not changed by what happens to the dictionaries they were made from, except that lists are shared *)
From Coq Require Import Relations.
From Verif Require Import Prelude PyStr Order Range Params ParamsSpec ParamsProofs ParamsUnify ParamsPairs Heap HeapProps HeapValues HeapPairs.

(** ** Specification *)
(** A heap to which some program leads. *)
Definition reachable (limit : nat) (h : list cell) : Prop := exists es, h = history limit [] es.
Definition is_new (h : list cell) (o : obj) : Prop := exists l, o = Ref l /\ nth_error h l = None.
(** The dictionary [o] has the dictionary [o'] as a value. *)
Definition inside (h : list cell) (o o' : obj) : Prop := exists items k, deref h o = Some (CDict items) /\ In (k, o') items /\ is_dict h o'.

(** ** Lemmas *)
Lemma reachable_ok limit h : reachable limit h -> ok_heap h.
Proof. intros (es & ->). apply (history_ok limit es []). apply ok_empty. Qed.
Lemma new_spec h o : (exists p i, exists h', deref h' o = Some (CParams p i)) \/ (exists i, exists h', deref h' o = Some (CDict i)) -> (forall l, o = Ref l -> length h <= l) -> is_new h o.
Proof.
  intros D L. destruct o as [v|l]; [destruct D as [(p & i & h' & D)|(i & h' & D)]; discriminate|]. exists l. split; [reflexivity|]. apply nth_error_None. now apply L.
Qed.
Lemma listless_items (m : list (str * pv)) : (fix all (m : list (str * pv)) : Prop := match m with [] => True | kv :: r => listless (snd kv) /\ all r end) m <-> Forall (fun kv => listless (snd kv)) m.
Proof. induction m as [|kv m IH]; [split; [constructor|trivial]|]. rewrite IH. split; [intros (A & B); now constructor|intros A; inversion A; auto]. Qed.
Lemma frozen_find h h' path : ok_heap h -> keeps h h' -> forall o, exists_obj h o = true -> ~ is_dict h o ->
  find_obj h' o path = find_obj h o path /\ forall x, find_obj h o path = Some x -> exists_obj h x = true /\ ~ is_dict h x.
Proof.
  intros K P. induction path as [|k r IH]; intros o O Nd; [split; [reflexivity|]; intros x X; injection X as <-; auto|]. cbn [find_obj]. destruct o as [v|l]; [split; [reflexivity|discriminate]|]. cbn [deref].
  destruct (obj_cell h l O) as (c & N). assert (Q := P l c N). rewrite N. destruct c as [i|i|p i]; [exfalso; apply Nd; now exists i|destruct Q as (j & ->); split; [reflexivity|discriminate]|]. rewrite Q.
  destruct (dfind i k) as [o'|] eqn:D; [|split; [reflexivity|discriminate]]. apply dfind_in in D. apply IH; [|exact (ok_clean h K l p i k o' N D)]. eapply (ok_objs h K); [exact N|]. simpl. apply in_map_iff. now exists (k, o').
Qed.
Lemma frozen_sees h h' o path : ok_heap h -> keeps h h' -> exists_obj h o = true -> ~ is_dict h o -> sees h' o path = sees h o path.
Proof.
  intros K P O Nd. unfold sees. destruct (frozen_find h h' path K P o O Nd) as (-> & X). destruct (find_obj h o path) as [x|]; [|reflexivity]. destruct (X x eq_refl) as (Ox & Nx). destruct x as [v|l]; [reflexivity|].
  destruct (obj_cell h l Ox) as (c & N). assert (Q := P l c N). simpl. rewrite N. destruct c as [i|i|p i]; [exfalso; apply Nx; now exists i|destruct Q as (j & ->); reflexivity|now rewrite Q].
Qed.
Lemma frozen_reads h h' : ok_heap h -> keeps h h' -> forall t o, listless t -> ~ is_dict h o -> reads h o t -> reads h' o t.
Proof.
  intros K P. induction t using pv_ind_nested; intros o L Nd R; inversion R; subst; try (constructor; reflexivity); try discriminate.
  - destruct L.
  - exfalso. apply Nd. eexists. eassumption.
  - match goal with A : nth_error h _ = Some (CParams _ _), B : Forall2 _ items m |- _ => rename A into N0; rename B into F0 end. econstructor; [exact (P _ _ N0)|]. apply listless_items in L. assert (C : forall k x, In (k, x) items -> ~ is_dict h x) by (intros k x I; exact (ok_clean h K _ _ _ _ _ N0 I)).
    clear - H F0 L C. induction F0 as [|a b r s (E & Hab) _ IH]; constructor; inversion H as [|? ? Hx Hy]; inversion L as [|? ? Lx Ly]; subst; [split; [assumption|]; apply Hx; [assumption|apply (C (fst a)); left; now destruct a|assumption]|].
    apply IH; [assumption|assumption|]. intros k x I. apply (C k x). now right.
Qed.
Lemma from_value_listless t : forall pre t', listless t -> from_value pre t = Ok t' -> listless t'.
Proof.
  induction t using pv_ind_nested; intros pre' t' L E; try (injection E as <-; exact L). rewrite from_value_map in E. apply bind_ok in E. destruct E as (d & E & M). destruct (mk_params_spec _ _ _ M) as [[_ X]|[_ X]]; [|discriminate]. injection X as ->.
  apply listless_items. apply listless_items in L. rewrite mapM_ok in E. clear M. induction E as [|kv y m d E1 _ IH]; constructor; inversion H as [|? ? Hx Hy]; inversion L as [|? ? Lx Ly]; subst; [|now apply IH].
  unfold from_item in E1. destruct (from_value _ (snd kv)) as [z|] eqn:Z; [|discriminate]. injection E1 as <-. simpl. eapply Hx; eassumption.
Qed.
Lemma dict_ext h h' o o' : ext h h' -> inside h o o' -> inside h' o o'.
Proof.
  intros E (i & k & D & I & (j & D')). exists i, k. destruct o as [v|l]; [discriminate|]. destruct o' as [v|l']; [discriminate|]. split; [exact (ext_nth _ _ _ _ E D)|]. split; [assumption|]. exists j. exact (ext_nth _ _ _ _ E D').
Qed.
Lemma endless n (Pi : list cell -> obj -> Prop) : (forall h o, Pi h o -> exists o', inside h o o' /\ Pi h o') -> (forall h h' o, ext h h' -> Pi h o -> Pi h' o) ->
  forall h prefix o h' r, ok_heap h -> Pi h o -> h_from_mapping n h prefix o = (h', r) -> forall o', r <> Ok o'.
Proof.
  intros Hi He. induction n as [|n IH]; intros h prefix o h' r K Po E; cbn [h_from_mapping] in E; [injection E as <- <-; discriminate|].
  destruct (Hi h o Po) as (c & (items & k & D & I & Dc) & Pc). rewrite D in E. match type of E with match h_each ?g _ _ with _ => _ end = _ => set (f := g) in * end.
  assert (Oi : forall x, In x (map snd items) -> exists_obj h x = true) by (intros x Hx; destruct o as [v|l]; [discriminate|]; eapply (ok_objs h K); [exact D|exact Hx]).
  assert (X : forall h1 d, h_each f h items <> (h1, Ok d)).
  { clear E D Po. revert h K Pc Dc Oi I. induction items as [|[k0 v] items IHi]; intros h K Pc Dc Oi I h1 d; [destruct I|]. cbn [h_each]. destruct (f h k0 v) as [g r0] eqn:F. destruct r0 as [v'|e]; [|discriminate].
    assert (Ov := Oi v (or_introl eq_refl)). destruct I as [I|I].
    - injection I as -> ->. destruct Dc as (j & Dc). unfold f in F. rewrite Dc in F. exfalso. exact (IH _ _ _ _ _ K Pc F v' eq_refl).
    - assert (Eg : ext h g /\ ok_heap g).
      { unfold f in F. destruct (deref h v) as [[x0|x0|x0 x1]|]; try (injection F as <- _; split; [apply ext_refl|assumption]). destruct (from_mapping_spec _ _ _ _ _ _ K Ov F) as (A & B & _). split; assumption. }
      destruct Eg as (Eg & Kg). assert (Dg : is_dict g c) by (destruct Dc as (j & Dc); destruct c as [w|l]; [discriminate|]; exists j; exact (ext_nth _ _ _ _ Eg Dc)).
      specialize (IHi g Kg (He _ _ _ Eg Pc) Dg (fun x Hx => ext_obj _ _ _ Eg (Oi x (or_intror Hx))) I). destruct (h_each f g items) as [h2 r2] eqn:G. destruct r2 as [r'|e]; [|discriminate]. exfalso. exact (IHi h2 r' eq_refl). }
  destruct (h_each f h items) as [h1 r1] eqn:G. destruct r1 as [d|e]; [exfalso; exact (X h1 d eq_refl)|]. injection E as <- <-. discriminate.
Qed.

Lemma first_step A (R : A -> A -> Prop) a b : clos_trans _ R a b -> exists y, R a y /\ clos_refl_trans _ R y b.
Proof.
  intros C. apply clos_trans_t1n in C. destruct C as [y C|y z C D]; exists y; (split; [assumption|]); [apply rt_refl|]. apply clos_t1n_trans in D. clear - D. induction D; [now apply rt_step|eapply rt_trans; eassumption].
Qed.

(** ** Theorems *)
(** Parameters.from_mapping changes no object; what it returns is a new Parameters object in which, along every path of names, the same is found as in the
    dictionary at the time of the call: the same immutable values, the very same lists, the same names in the same order. *)
Theorem C104_from_mapping : forall limit h, reachable limit h -> forall o prefix h' r, exists_obj h o = true -> h_from_mapping limit h prefix o = (h', r) ->
  unchanged h h' /\ forall p, r = Ok p -> is_parameters h' p /\ is_new h p /\ forall path, sees h' p path = sees h o path.
Proof.
  intros limit h Re o prefix h' r O E. assert (K := reachable_ok _ _ Re). destruct (from_mapping_spec _ _ _ _ _ _ K O E) as (X & _ & S). split; [now apply ext_unchanged|]. intros p Hp. destruct (S p Hp) as (_ & (q & i & D) & L & V).
  split; [now exists q, i|]. split; [apply new_spec; [left; now exists q, i, h'|exact L]|exact V].
Qed.
(** as_nested_dicts changes no object; what it returns is a new dictionary in which the same is found; all dictionaries in it (outside of lists) are new,
    and there is no Parameters object in it. *)
Theorem C104_as_nested_dicts : forall limit h, reachable limit h -> forall o h' r, is_parameters h o -> h_dictify limit h o = (h', r) ->
  unchanged h h' /\ forall d, r = Ok d -> is_dict h' d /\ (forall path, sees h' d path = sees h o path) /\
    forall path x, find_obj h' d path = Some x -> ~ is_parameters h' x /\ (is_dict h' x -> is_new h x).
Proof.
  intros limit h Re o h' r (q & i & D) E. assert (K := reachable_ok _ _ Re). assert (O : exists_obj h o = true) by (destruct o as [v|l]; [discriminate|]; simpl; apply Nat.ltb_lt; apply nth_error_Some; simpl in D; congruence).
  assert (Nd : ~ is_dict h o) by (intros (j & X); congruence). destruct (dictify_spec _ _ _ _ _ K O Nd E) as (X & _ & S). split; [now apply ext_unchanged|]. intros d Hd. destruct (S d Hd) as (_ & A & B & C). split; [apply A; now exists q, i|]. split; [exact C|].
  intros path x F. destruct (B path x F) as (B1 & B2). split; [exact B1|]. intros (j & Dj). destruct (B2 j Dj) as (l & -> & L). exists l. split; [reflexivity|]. now apply nth_error_None.
Qed.
(** unify changes no object; what it returns is a new Parameters object. *)
Theorem C104_unify : forall limit h, reachable limit h -> forall a b prefix h' r, exists_obj h a = true -> exists_obj h b = true -> h_unify_with limit h a b prefix = (h', r) ->
  unchanged h h' /\ forall p, r = Ok p -> is_parameters h' p /\ is_new h p.
Proof.
  intros limit h Re a b prefix h' r Oa Ob E. assert (K := reachable_ok _ _ Re). destruct (unify_with_spec _ _ _ _ _ _ _ K Oa Ob E) as (X & _ & S). split; [now apply ext_unchanged|]. intros p Hp. destruct (S p Hp) as (_ & (q & i & D) & L).
  split; [now exists q, i|]. apply new_spec; [left; now exists q, i, h'|exact L].
Qed.
(** from_key_value_pairs, when no dictionary is among the values, changes no object; what it returns is a new Parameters object. *)
Theorem C104_from_key_value_pairs : forall limit h, reachable limit h -> forall kvs sep h' r,
  (forall o, In o (map snd kvs) -> exists_obj h o = true /\ ~ is_dict h o) -> h_from_pairs limit h kvs sep = (h', r) ->
  unchanged h h' /\ forall p, r = Ok p -> is_parameters h' p /\ is_new h p.
Proof.
  intros limit h Re kvs sep h' r O E. assert (K := reachable_ok _ _ Re). split; [exact (pairs_unchanged _ _ _ _ _ _ K O E)|]. destruct (from_pairs_ok _ _ _ _ _ _ K (fun o Ho => proj1 (O o Ho)) E) as (_ & _ & S). intros p Hp. destruct (S p Hp) as ((q & i & D) & L).
  split; [now exists q, i|]. apply new_spec; [left; now exists q, i, h'|exact L].
Qed.
(** The results have the values which the model of Params.v computes from the values of the arguments at the time of the call (or the same exception is raised),
    if the limit of nested calls is large enough. *)
Theorem C104_values : forall limit h, reachable limit h ->
  (forall o t prefix h' r, reads h o t -> depth t < limit -> h_from_mapping limit h prefix o = (h', r) -> agrees h' r (from_mapping t prefix)) /\
  (forall o t h' r, reads h o t -> is_parameters h o -> depth t < limit -> h_dictify limit h o = (h', r) -> agrees h' r (Ok (dictify t))) /\
  (forall a b ta tb prefix h' r, reads h a ta -> reads h b tb -> S (depth ta) < limit -> depth tb < limit -> h_unify_with limit h a b prefix = (h', r) -> agrees h' r (unify_with ta tb prefix)) /\
  (forall kvs tkvs sep, Forall2 (fun a b => fst a = fst b /\ reads h (snd a) (snd b)) kvs tkvs -> (forall o, In o (map snd kvs) -> ~ is_dict h o) ->
    exists enough, forall limit' h' r, enough < limit' -> h_from_pairs limit' h kvs sep = (h', r) -> agrees h' r (from_key_value_pairs tkvs sep)).
Proof.
  intros limit h Re. assert (K := reachable_ok _ _ Re). repeat split.
  - intros o t prefix h' r R L E. destruct (from_mapping_agrees _ _ _ _ _ _ _ K R E) as [(X & _)|X]; [|exact X]. assert (Y := mdepth_depth t). lia.
  - intros o t h' r R (p & i & D) L E. assert (Nd : ~ is_dict h o) by (intros (j & X); congruence). destruct (dictify_agrees _ _ _ _ _ _ K Nd R E) as [(X & _)|X]; [lia|exact X].
  - intros a b ta tb prefix h' r Ra Rb La Lb E. destruct (unify_with_agrees _ _ _ _ _ _ _ _ _ K Ra Rb E) as [([X|X] & _)|X]; [lia|lia|exact X].
  - intros kvs tkvs sep F Nd. destruct (pairs_agrees h kvs tkvs sep K F Nd) as (n & H). exists n. intros limit' h' r L E. destruct (H limit' h' r E) as [(X & _)|X]; [lia|exact X].
Qed.
(** Whatever a program does afterwards - changing the dictionaries and lists it has, making others, calling the functions above, also with dictionaries as values of
    from_key_value_pairs - along every path of names the same is found in a Parameters object: the same immutable values, the very same lists, the same names. *)
Theorem C104_frozen : forall limit h, reachable limit h -> forall p, is_parameters h p -> forall es path, sees (history limit h es) p path = sees h p path.
Proof.
  intros limit h Re p (q & i & D) es path. assert (K := reachable_ok _ _ Re). destruct (history_ok limit es h K) as (_ & P). apply frozen_sees; [assumption|assumption| |intros (j & X); congruence].
  destruct p as [v|l]; [discriminate|]. simpl. apply Nat.ltb_lt. apply nth_error_Some. simpl in D. congruence.
Qed.
(** Without lists, the whole value of a Parameters object stays the same for ever. *)
Theorem C104_frozen_value : forall limit h, reachable limit h -> forall p t, is_parameters h p -> reads h p t -> listless t -> forall es, reads (history limit h es) p t.
Proof.
  intros limit h Re p t (q & i & D) R L es. assert (K := reachable_ok _ _ Re). destruct (history_ok limit es h K) as (_ & P). apply (frozen_reads h _ K P); [assumption|intros (j & X); congruence|assumption].
Qed.
(** A Parameters object made from a dictionary without lists has, for ever, the value which from_mapping (Params.v) gives for the dictionary's value at the call. *)
Theorem C104_isolated : forall limit h, reachable limit h -> forall o t prefix h' p, reads h o t -> listless t -> depth t < limit -> h_from_mapping limit h prefix o = (h', Ok p) ->
  exists v, from_mapping t prefix = Ok v /\ forall es, reads (history limit h' es) p v.
Proof.
  intros limit h Re o t prefix h' p R L D E. assert (A := proj1 (C104_values limit h Re) o t prefix h' _ R D E). unfold agrees in A. destruct (from_mapping t prefix) as [v|] eqn:F; [|contradiction]. exists v. split; [reflexivity|]. intros es.
  assert (K := reachable_ok _ _ Re). destruct (from_mapping_spec _ _ _ _ _ _ K (reads_exists _ _ _ R) E) as (_ & K' & S). destruct (S p eq_refl) as (_ & (q & i & Dp) & _). destruct (history_ok limit es h' K') as (_ & P).
  apply (frozen_reads h' _ K' P); [|intros (j & X); congruence|assumption]. destruct t; try discriminate. exact (from_value_listless _ _ _ L F).
Qed.
(** A dictionary which contains itself (directly or in other dictionaries) cannot be converted, whatever the limit of nested calls. *)
Theorem C104_cycle : forall limit h, reachable limit h -> forall o, clos_trans _ (inside h) o o -> forall limit' prefix p, snd (h_from_mapping limit' h prefix o) <> Ok p.
Proof.
  intros limit h Re o C limit' prefix p E. destruct (h_from_mapping limit' h prefix o) as [h' r] eqn:G. simpl in E.
  refine (endless limit' (fun h o => exists c, clos_refl_trans _ (inside h) o c /\ clos_trans _ (inside h) c c) _ _ h prefix o h' r (reachable_ok _ _ Re) _ G p E).
  - clear. intros h o (c & A & B). apply clos_rt_rt1n in A. destruct A as [|x z A1 A2].
    + destruct (first_step _ _ _ _ B) as (y & Y1 & Y2). exists y. split; [assumption|]. exists o. split; assumption.
    + exists x. split; [assumption|]. exists z. split; [|assumption]. now apply clos_rt1n_rt.
  - clear. intros h h' o X (c & A & B). exists c. split.
    + clear - A X. induction A; [apply rt_step; exact (dict_ext _ _ _ _ X H)|apply rt_refl|eapply rt_trans; [exact IHA1|exact IHA2]].
    + clear A. revert B. generalize c at 1 3 as c0. intros c0 B. clear - B X. induction B; [apply t_step; exact (dict_ext _ _ _ _ X H)|eapply t_trans; [exact IHB1|exact IHB2]].
  - exists o. split; [apply rt_refl|exact C].
Qed.
