(** * C108: equality of Parameters objects (parameters.py:55-81; the model, [peq], is in Params.v) *)
From Verif Require Import Prelude PyStr Order Range Params ParamsSpec ParamsProofs ParamsGet ParamsProps.

(** ** Specification *)
(** A dict never has a key twice, at any depth. *)
Inductive dicts_ok : pv -> Prop :=
| dk_map m : NoDup (keys m) -> (forall k x, In (k, x) m -> dicts_ok x) -> dicts_ok (PMap m)
| dk_params pre m : NoDup (keys m) -> (forall k x, In (k, x) m -> dicts_ok x) -> dicts_ok (PParams pre m)
| dk_list l : (forall x, In x l -> dicts_ok x) -> dicts_ok (PList l)
| dk_leaf v : (match v with PMap _ | PParams _ _ | PList _ => False | _ => True end) -> dicts_ok v.
(** A float, or an object we know nothing about. *)
Definition foreign (v : pv) : bool := match v with PFloat _ | POther _ => true | _ => false end.
(** What == of floats and unknown objects is taken not to do: claim equality with None, a string, a dict or a Parameters object. *)
Definition unlike_any (v : pv) : bool := match v with PNone | PStr _ | PMap _ | PParams _ _ => true | _ => false end.
Definition honest (oeq : pv -> pv -> bool) : Prop := forall v w, oeq v w = true -> unlike_any v = false /\ unlike_any w = false.
(** Two stored values: namespaces with the same prefix, or equal values that are no namespaces. *)
Definition alike (oeq : pv -> pv -> bool) (v w : pv) : Prop :=
  is_params v = true /\ is_params w = true /\ params_prefix v = params_prefix w \/ is_params v = false /\ is_params w = false /\ peq oeq v w = true.

(** ** Proofs *)
Lemma str_eqb_iff a b : str_eqb a b = true <-> a = b.
Proof. split; [apply str_eqb_eq|intros ->; apply str_eqb_refl]. Qed.
Lemma dict_eq_spec eq (a b : data_t) : NoDup (keys a) -> NoDup (keys b) ->
  (dict_eq eq a b = true <-> forall k, match dfind a k, dfind b k with Some v, Some w => eq v w = true | None, None => True | _, _ => False end).
Proof.
  intros Na Nb. unfold dict_eq. rewrite andb_true_iff, Nat.eqb_eq, forallb_forall. split.
  - intros (L & H). assert (I1 : incl (keys a) (keys b)).
    { intros k Ik. apply in_map_iff in Ik. destruct Ik as (kv & <- & Ik). specialize (H kv Ik). apply dfind_some_key. destruct (dfind b (fst kv)); [eauto|discriminate]. }
    assert (I2 : incl (keys b) (keys a)) by (apply NoDup_length_incl; [assumption|unfold keys; rewrite !map_length; lia|assumption]).
    intros k. destruct (dfind a k) as [v|] eqn:Ea.
    + apply dfind_in in Ea. specialize (H _ Ea). cbn [fst snd] in H. destruct (dfind b k); [assumption|discriminate].
    + apply dfind_none in Ea. assert (dfind b k = None) as -> by (apply dfind_none; auto). exact I.
  - intros H. split.
    + assert (forall k, In k (keys a) <-> In k (keys b)) as S1. { intros k. rewrite !dfind_some_key. specialize (H k). destruct (dfind a k), (dfind b k); split; intros (x & E); try discriminate; eauto; contradiction. }
      rewrite <- (map_length fst a), <- (map_length fst b). apply Nat.le_antisymm; apply NoDup_incl_length; auto; intros k; apply S1.
    + intros [k v] Ik. specialize (H k). cbn [fst snd]. rewrite (in_dfind _ _ _ Na Ik) in H. destruct (dfind b k); [assumption|destruct H].
Qed.
Lemma peq_list oeq l m : peq oeq (PList l) (PList m) = true <-> Forall2 (fun a b => peq oeq a b = true) l m.
Proof.
  cbn [peq]. revert m. induction l as [|x l IH]; intros [|y m]; try (split; [discriminate|intros H; inversion H]); [split; [constructor|reflexivity]|].
  rewrite andb_true_iff, IH. split; [intros (A & B); now constructor|intros H; inversion H; auto].
Qed.
Lemma peq_params oeq pre d pre' d' : peq oeq (PParams pre d) (PParams pre' d') = true <-> pre = pre' /\ dict_eq (peq oeq) d d' = true.
Proof. cbn [peq]. rewrite andb_true_iff. destruct (list_eq_dec (list_eq_dec N.eq_dec) pre pre'); intuition congruence. Qed.
Lemma wf_dicts v pre d k x : v = PParams pre d -> dicts_ok v -> In (k, x) d -> NoDup (keys d) /\ dicts_ok x.
Proof. intros -> H I. inversion H; subst; [eauto|]. simpl in *. contradiction. Qed.

Lemma peq_refl oeq v : (forall a, foreign a = true -> oeq a a = true) -> dicts_ok v -> peq oeq v v = true.
Proof.
  intros R. induction v using pv_ind_nested; intros D; try (cbn; first [reflexivity|apply Z.eqb_refl|apply str_eqb_refl|now apply R]).
  - apply peq_list. inversion D as [| |? Dl|? Dl]; subst; [|destruct Dl]. clear D. induction H as [|x l Hx H IH]; constructor; [apply Hx, Dl; now left|apply IH; intros y Iy; apply Dl; now right].
  - inversion D as [? N Dl| | |? Dl]; subst; [|destruct Dl]. cbn [peq]. apply dict_eq_spec; [assumption|assumption|]. intros k. destruct (dfind m k) as [x|] eqn:E; [|exact I]. apply dfind_in in E. rewrite Forall_forall in H. exact (H _ E (Dl _ _ E)).
  - inversion D as [|? ? N Dl| |? Dl]; subst; [|destruct Dl]. apply peq_params. split; [reflexivity|]. apply dict_eq_spec; [assumption|assumption|]. intros k. destruct (dfind m k) as [x|] eqn:E; [|exact I]. apply dfind_in in E. rewrite Forall_forall in H. exact (H _ E (Dl _ _ E)).
Qed.
Lemma peq_sym oeq : (forall a b, oeq a b = oeq b a) -> forall v w, dicts_ok v -> dicts_ok w -> peq oeq v w = true -> peq oeq w v = true.
Proof.
  intros Sy v. assert (Dic : forall m m', Forall (fun kv => forall w, dicts_ok (snd kv) -> dicts_ok w -> peq oeq (snd kv) w = true -> peq oeq w (snd kv) = true) m ->
    NoDup (keys m) -> NoDup (keys m') -> (forall k x, In (k, x) m -> dicts_ok x) -> (forall k x, In (k, x) m' -> dicts_ok x) -> dict_eq (peq oeq) m m' = true -> dict_eq (peq oeq) m' m = true).
  { intros m m' H N N' D D'. rewrite !dict_eq_spec by assumption. intros E k. specialize (E k). rewrite Forall_forall in H. destruct (dfind m k) as [x|] eqn:Ex, (dfind m' k) as [y|] eqn:Ey; try assumption. apply dfind_in in Ex, Ey. exact (H _ Ex y (D _ _ Ex) (D' _ _ Ey) E). }
  induction v using pv_ind_nested; intros w Dv Dw E; destruct w; try discriminate E; try (cbn in E |- *; first [assumption|rewrite Z.eqb_sym; assumption|apply str_eqb_iff in E; subst; apply str_eqb_refl|rewrite Sy; assumption]).
  - apply peq_list in E. apply peq_list. inversion Dv as [| |? Dl|? Dl]; subst; [|destruct Dl]. inversion Dw as [| |? Dl'|? Dl']; subst; [|destruct Dl']. clear Dv Dw. revert H Dl Dl'. induction E as [|x y l m Exy E IH]; intros H Dl Dl'; constructor.
    + inversion H; subst. auto using in_eq.
    + inversion H; subst. apply IH; [assumption| |]; intros z Iz; auto using in_cons.
  - inversion Dv as [? N Dl| | |? Dl]; subst; [|destruct Dl]. inversion Dw as [? N' Dl'| | |? Dl']; subst; [|destruct Dl']. cbn [peq] in *. now apply (Dic m).
  - inversion Dv as [|? ? N Dl| |? Dl]; subst; [|destruct Dl]. inversion Dw as [|? ? N' Dl'| |? Dl']; subst; [|destruct Dl']. apply peq_params in E. destruct E as (-> & E). apply peq_params. split; [reflexivity|]. now apply (Dic m).
Qed.
Lemma peq_trans oeq : (forall a b c, foreign a || foreign b || foreign c = true -> peq oeq a b = true -> peq oeq b c = true -> peq oeq a c = true) ->
  forall v w u, dicts_ok v -> dicts_ok w -> dicts_ok u -> peq oeq v w = true -> peq oeq w u = true -> peq oeq v u = true.
Proof.
  intros Tr v. assert (Dic : forall m m' m'', Forall (fun kv => forall w u, dicts_ok (snd kv) -> dicts_ok w -> dicts_ok u -> peq oeq (snd kv) w = true -> peq oeq w u = true -> peq oeq (snd kv) u = true) m ->
    NoDup (keys m) -> NoDup (keys m') -> NoDup (keys m'') -> (forall k x, In (k, x) m -> dicts_ok x) -> (forall k x, In (k, x) m' -> dicts_ok x) -> (forall k x, In (k, x) m'' -> dicts_ok x) ->
    dict_eq (peq oeq) m m' = true -> dict_eq (peq oeq) m' m'' = true -> dict_eq (peq oeq) m m'' = true).
  { intros m m' m'' H N N' N'' D D' D''. rewrite !dict_eq_spec by assumption. intros E E' k. specialize (E k). specialize (E' k). rewrite Forall_forall in H.
    destruct (dfind m k) as [x|] eqn:Ex, (dfind m' k) as [y|] eqn:Ey, (dfind m'' k) as [z|] eqn:Ez; try contradiction; try exact I. apply dfind_in in Ex, Ey, Ez. exact (H _ Ex y z (D _ _ Ex) (D' _ _ Ey) (D'' _ _ Ez) E E'). }
  induction v using pv_ind_nested; intros w u Dv Dw Du E E'; (destruct (foreign w) eqn:Fw; [apply (Tr _ w); [rewrite Fw; now rewrite orb_true_r|assumption|assumption]|]); (destruct (foreign u) eqn:Fu; [apply (Tr _ w); [rewrite Fu; now rewrite orb_true_r|assumption|assumption]|]);
    try (apply (Tr _ w); [reflexivity|assumption|assumption]); destruct w; try discriminate E; try discriminate Fw; destruct u; try discriminate E'; try discriminate Fu; try reflexivity;
    try (cbn in E, E' |- *; rewrite Z.eqb_eq in *; congruence); try (cbn in E, E' |- *; rewrite str_eqb_iff in *; congruence).
  - apply peq_list in E, E'. apply peq_list. inversion Dv as [| |? Dl|? Dl]; subst; [|destruct Dl]. inversion Dw as [| |? Dl'|? Dl']; subst; [|destruct Dl']. inversion Du as [| |? Dl2|? Dl2]; subst; [|destruct Dl2]. clear Dv Dw Du Fw Fu.
    match goal with E : Forall2 _ l ?m, E' : Forall2 _ ?m ?n |- _ => revert n E' Dl2; revert H Dl Dl'; induction E as [|x y l0 m0 Exy E IH]; intros H Dl Dl' n E' Dl2 end; inversion E' as [|? z ? n' Eyz E2]; subst; constructor.
    + inversion H; subst. match goal with H : forall w u, _ |- _ => apply (H y z) end; auto using in_eq.
    + inversion H; subst. apply IH; try assumption; intros; auto using in_cons.
  - inversion Dv as [? N Dl| | |? Dl]; subst; [|destruct Dl]. inversion Dw as [? N' Dl'| | |? Dl']; subst; [|destruct Dl']. inversion Du as [? N2 Dl2| | |? Dl2]; subst; [|destruct Dl2]. cbn [peq] in *. exact (Dic _ _ _ H N N' N2 Dl Dl' Dl2 E E').
  - inversion Dv as [|? ? N Dl| |? Dl]; subst; [|destruct Dl]. inversion Dw as [|? ? N' Dl'| |? Dl']; subst; [|destruct Dl']. inversion Du as [|? ? N2 Dl2| |? Dl2]; subst; [|destruct Dl2]. apply peq_params in E, E'. destruct E as (-> & E), E' as (-> & E'). apply peq_params. split; [reflexivity|]. exact (Dic _ _ _ H N N' N2 Dl Dl' Dl2 E E').
Qed.

(** ** What equal objects have in common *)
Lemma peq_kind oeq v w : honest oeq -> peq oeq v w = true -> is_params v = is_params w /\ is_none v = is_none w /\ is_str v = is_str w /\ (unlike_any v = unlike_any w).
Proof. intros H E. destruct v, w; try discriminate E; try (repeat split; reflexivity); cbn [peq] in E; destruct (H _ _ E) as (A & B); cbn in A, B; try discriminate; repeat split. Qed.
Lemma peq_str oeq s w : honest oeq -> peq oeq (PStr s) w = true -> w = PStr s.
Proof. intros H E. destruct w; try discriminate E; cbn [peq] in E; try (destruct (H _ _ E); discriminate). apply str_eqb_iff in E. now subst. Qed.
Lemma reaches_dotless p q v : wf p -> reaches p q v -> forall k, In k q -> dotless k.
Proof.
  intros W R. induction R as [t|pre d k x q t I R IH]; intros k' K; [destruct K|]. assert (W' := W). destruct W' as (N & D & _). destruct K as [<-|K].
  - rewrite Forall_forall in D. apply D. apply in_map_iff. exists (k, x). auto.
  - apply IH; [|assumption]. apply (wf_find pre d k x W). now apply in_dfind.
Qed.
Lemma peq_walk oeq : honest oeq -> forall v w, wf v -> wf w -> peq oeq v w = true -> forall q,
  match walk v q, walk w q with Some a, Some b => peq oeq a b = true | None, None => True | _, _ => False end.
Proof.
  intros Ho. induction v using pv_ind_nested; intros w Wv Ww E q; try (destruct q as [|k q]; [exact E|]; destruct (peq_kind _ _ _ Ho E) as (K & _); cbn [walk]; destruct w; try discriminate K; exact I).
  destruct q as [|k q]; [exact E|]. destruct (peq_kind _ _ _ Ho E) as (K & _). destruct w as [| | | | | | | | |pre' m'|]; try discriminate K. apply peq_params in E. destruct E as (_ & E).
  assert (Wv' := Wv). assert (Ww' := Ww). destruct Wv' as (Nv & _), Ww' as (Nw & _). rewrite dict_eq_spec in E by assumption. specialize (E k). cbn [walk].
  destruct (dfind m k) as [x|] eqn:Ex, (dfind m' k) as [y|] eqn:Ey; try contradiction; [|exact I]. rewrite Forall_forall in H. assert (Ix := dfind_in _ _ _ Ex). apply (H _ Ix y); [exact (wf_find _ _ _ _ Wv Ex)|exact (wf_find _ _ _ _ Ww Ey)|exact E].
Qed.
Lemma alike_of oeq v w : honest oeq -> peq oeq v w = true -> alike oeq v w.
Proof.
  intros Ho E. destruct (peq_kind _ _ _ Ho E) as (K & _). destruct (is_params v) eqn:Pv; [left|right; auto]. split; [exact Pv|]. split; [now symmetry|]. destruct v; try discriminate Pv. destruct w; try discriminate K. apply peq_params in E. destruct E as (-> & _). reflexivity.
Qed.
Lemma walk_peq oeq : forall v w, wf v -> wf w -> (forall q, match walk v q, walk w q with Some a, Some b => alike oeq a b | None, None => True | _, _ => False end) -> peq oeq v w = true.
Proof.
  induction v using pv_ind_nested; intros w Wv Ww E; assert (E0 := E []); cbn [walk] in E0; try (destruct E0 as [(K & _)|(_ & _ & E0)]; [discriminate K|exact E0]).
  destruct E0 as [(_ & K & Ep)|(K & _)]; [|discriminate K]. destruct w as [| | | | | | | | |pre' m'|]; try discriminate K. cbn [params_prefix] in Ep. subst pre'. apply peq_params. split; [reflexivity|].
  assert (Wv' := Wv). assert (Ww' := Ww). destruct Wv' as (Nv & _), Ww' as (Nw & _). apply dict_eq_spec; [assumption|assumption|]. intros k. assert (Ek := fun q => E (k :: q)). cbn [walk] in Ek.
  destruct (dfind m k) as [x|] eqn:Ex, (dfind m' k) as [y|] eqn:Ey; [|exact (Ek [])|exact (Ek [])|exact I]. rewrite Forall_forall in H. assert (Ix := dfind_in _ _ _ Ex). apply (H _ Ix y); [exact (wf_find _ _ _ _ Wv Ex)|exact (wf_find _ _ _ _ Ww Ey)|exact Ek].
Qed.

(** C108: two Parameters objects are equal exactly when they have the same prefix and every (dotted) name is missing in both, or is in both a namespace with the same prefix, or has in
    both equal values. *)
Theorem C108_equality : forall oeq p q, honest oeq -> wf_params p -> wf_params q ->
  (peq oeq p q = true <-> params_prefix p = params_prefix q /\ forall name, Absent p name /\ Absent q name \/ exists v w, Stored p name v /\ Stored q name w /\ alike oeq v w).
Proof.
  intros oeq p q Ho (Wp & Tp) (Wq & Tq). split.
  - intros E. destruct (alike_of _ _ _ Ho E) as [(_ & _ & Ep)|(K & _)]; [|congruence]. split; [exact Ep|]. intros name. assert (G := peq_walk oeq Ho p q Wp Wq E (py_split dot name)).
    destruct (walk p (py_split dot name)) as [v|] eqn:Ev, (walk q (py_split dot name)) as [w|] eqn:Ew; try contradiction.
    + right. exists v, w. split; [now apply stored_walk|]. split; [now apply stored_walk|]. now apply alike_of.
    + left. split; now apply absent_walk.
  - intros (Ep & H). apply walk_peq; [assumption|assumption|]. intros path. destruct path as [|k r]; [left; auto|].
    assert (G : (forall x, In x (k :: r) -> dotless x) -> py_split dot (dotted (k :: r)) = k :: r) by (intros D; unfold dotted; apply py_join_split; [discriminate|exact D]).
    assert (Dd : (forall x, In x (k :: r) -> dotless x) \/ ~ (forall x, In x (k :: r) -> dotless x)).
    { clear. induction (k :: r) as [|x l [IH|IH]]; [left; intros ? []|destruct (dotless_dec x) as [D|D]; [left; intros y [<-|I]; auto|right; intros A; exact (A x (or_introl eq_refl) D)]|right; intros A; apply IH; intros y I; apply A; now right]. }
    destruct Dd as [D|D].
    + specialize (H (dotted (k :: r))). unfold Stored, Absent, Stored in H. rewrite (G D) in H. destruct H as [(A & B)|(v & w & A & B & C)].
      * destruct (walk p (k :: r)) as [v|] eqn:Ev; [apply (walk_reaches _ _ _ Wp) in Ev; destruct (A v Ev)|]. destruct (walk q (k :: r)) as [w|] eqn:Ew; [apply (walk_reaches _ _ _ Wq) in Ew; destruct (B w Ew)|exact I].
      * apply (walk_reaches _ _ _ Wp) in A. apply (walk_reaches _ _ _ Wq) in B. rewrite A, B. exact C.
    + destruct (walk p (k :: r)) as [v|] eqn:Ev; [apply (walk_reaches _ _ _ Wp) in Ev; destruct D; exact (reaches_dotless _ _ _ Wp Ev)|]. destruct (walk q (k :: r)) as [w|] eqn:Ew; [apply (walk_reaches _ _ _ Wq) in Ew; destruct D; exact (reaches_dotless _ _ _ Wq Ew)|exact I].
Qed.
(** C108: equality is an equivalence, if == between floats and unknown objects (and between these and other values) fits into one. *)
Theorem C108_equivalence : forall oeq p q r, dicts_ok p -> dicts_ok q -> dicts_ok r ->
  (forall a, foreign a = true -> oeq a a = true) -> (forall a b, oeq a b = oeq b a) -> (forall a b c, foreign a || foreign b || foreign c = true -> peq oeq a b = true -> peq oeq b c = true -> peq oeq a c = true) ->
  peq oeq p p = true /\ peq oeq p q = peq oeq q p /\ (peq oeq p q = true -> peq oeq q r = true -> peq oeq p r = true).
Proof.
  intros oeq p q r Dp Dq Dr R Sy Tr. split; [now apply peq_refl|]. split; [apply Bool.eq_iff_eq_true; split; now apply peq_sym|now apply peq_trans].
Qed.
(** C108: equal objects answer alike: [in], has_namespace, namespace and string.  (For numbers and booleans see below.) *)
Theorem C108_same_answers : forall oeq p q, honest oeq -> wf_params p -> wf_params q -> peq oeq p q = true -> forall name,
  contains p name = contains q name /\ has_namespace p name = has_namespace q name /\
  (forall ns, namespace p name = Ok ns -> exists ns', namespace q name = Ok ns' /\ peq oeq ns ns' = true) /\
  (forall valid s, string_ p name valid PNone = Ok (PStr s) -> string_ q name valid PNone = Ok (PStr s)).
Proof.
  intros oeq p q Ho (Wp & Tp) (Wq & Tq) E name. assert (G := peq_walk oeq Ho p q Wp Wq E (py_split dot name)).
  unfold contains, has_namespace, namespace, string_, get, private_get. destruct (walk p (py_split dot name)) as [v|], (walk q (py_split dot name)) as [w|]; try contradiction; cbn [bind negb is_none is_params].
  - destruct (peq_kind _ _ _ Ho G) as (Kp & Kn & Ks & _). rewrite <- Kp, <- Kn, <- Ks. split; [reflexivity|]. split; [reflexivity|]. split.
    + destruct (is_params v); [|discriminate]. intros ns En. injection En as <-. eauto.
    + destruct v; try discriminate. cbn [is_str]. rewrite (peq_str _ _ _ Ho G). auto.
  - split; [reflexivity|]. split; [reflexivity|]. split; discriminate.
Qed.
(** C108: as_nested_dicts of equal objects are equal dicts, and objects made from equal plain dicts are equal: the order of the keys does not matter. *)
Theorem C108_as_nested_dicts : forall oeq p q, honest oeq -> wf_params p -> wf_params q -> peq oeq p q = true -> peq oeq (dictify p) (dictify q) = true.
Proof.
  intros oeq p q Ho (Wp & _) (Wq & _). revert q Wp Wq. induction p using pv_ind_nested; intros q Wp Wq E; destruct (peq_kind _ _ _ Ho E) as (K & _); destruct q as [| | | | | | | | |pre' m'|]; try discriminate K; try exact E.
  apply peq_params in E. destruct E as (_ & E). cbn [dictify peq]. assert (Wp' := Wp). assert (Wq' := Wq). destruct Wp' as (Nv & _), Wq' as (Nw & _). apply dict_eq_spec; [now rewrite keys_map|now rewrite keys_map|]. rewrite dict_eq_spec in E by assumption.
  assert (F : forall (d : data_t) k, dfind (map (fun kv => (fst kv, dictify (snd kv))) d) k = match dfind d k with Some x => Some (dictify x) | None => None end) by (clear; induction d as [|[k' x] d IH]; intros k; simpl; [reflexivity|]; destruct (str_eqb k' k); auto).
  intros k. specialize (E k). rewrite !F. destruct (dfind m k) as [x|] eqn:Ex, (dfind m' k) as [y|] eqn:Ey; try exact E. rewrite Forall_forall in H. assert (Ix := dfind_in _ _ _ Ex). apply (H _ Ix y); [exact (wf_find _ _ _ _ Wp Ex)|exact (wf_find _ _ _ _ Wq Ey)|exact E].
Qed.
Theorem C108_from_mapping : forall oeq m m' prefix p p', honest oeq -> plain (PMap m) -> plain (PMap m') -> peq oeq (PMap m) (PMap m') = true ->
  from_mapping (PMap m) prefix = Ok p -> from_mapping (PMap m') prefix = Ok p' -> peq oeq p p' = true.
Proof.
  intros oeq m m' prefix p p' Ho Pm Pm' E A B. cbn [from_mapping] in A, B. revert Pm Pm' E A B. generalize (PMap m) (PMap m'). intros v w. revert w prefix p p'.
  induction v using pv_ind_nested; intros w prefix p p' Pv Pw E A B; destruct (peq_kind _ _ _ Ho E) as (K & _ & _ & U);
    try (rewrite from_value_leaf in A by discriminate; injection A as <-; destruct w; try discriminate U; try (rewrite from_value_leaf in B by discriminate; injection B as <-; exact E); try discriminate K; try discriminate E); try contradiction.
  destruct w as [| | | | | | | |mw| |]; try discriminate U; try discriminate E. rewrite from_value_map in A, B. apply bind_ok in A, B. destruct A as (d & A & A'), B as (d' & B & B').
  destruct (mk_params_spec _ _ _ A') as [[_ X]|[_ X]]; [|discriminate]. injection X as ->. destruct (mk_params_spec _ _ _ B') as [[_ X]|[_ X]]; [|discriminate]. injection X as ->. clear A' B'.
  apply peq_params. split; [reflexivity|]. apply plain_map in Pv, Pw. destruct Pv as (Nv & Pv), Pw as (Nw & Pw). cbn [peq] in E. rewrite dict_eq_spec in E by assumption.
  apply dict_eq_spec; [now rewrite (from_item_keys _ _ _ A)|now rewrite (from_item_keys _ _ _ B)|]. intros k. specialize (E k). assert (GA := from_item_find _ _ _ A k). assert (GB := from_item_find _ _ _ B k).
  destruct (dfind m0 k) as [x|] eqn:Ex, (dfind mw k) as [y|] eqn:Ey; try contradiction.
  - destruct GA as (x' & FA & ->), GB as (y' & FB & ->). rewrite Forall_forall in H, Pv, Pw. apply dfind_in in Ex, Ey. exact (H _ Ex y _ _ _ (Pv _ Ex) (Pw _ Ey) E FA FB).
  - rewrite GA, GB. exact I.
Qed.
Lemma walk_wf p q v : wf p -> walk p q = Some v -> wf v.
Proof.
  revert p. induction q as [|k q IH]; intros p W E; cbn [walk] in E; [now injection E as <-|]. destruct p; try discriminate. destruct (dfind data k) as [x|] eqn:Ex; [|discriminate]. exact (IH x (wf_find _ _ _ _ W Ex) E).
Qed.
Lemma dictify_plain v : wf v -> plain (dictify v) /\ forall k, nested_key (dictify v) k -> dotless k.
Proof.
  induction v using pv_ind_nested; intros W; try (split; [exact I|intros k K; inversion K]); [destruct W|]. apply wf_map in W. destruct W as (N & D & W). rewrite Forall_forall in H, W, D. cbn [dictify]. split.
  - apply plain_map. rewrite keys_map. split; [assumption|]. apply Forall_forall. intros kv I. apply in_map_iff in I. destruct I as (kv' & <- & I). cbn [snd]. exact (proj1 (H _ I (W _ I))).
  - intros k K. inversion K as [m' k' x I|m' k1 x k2 I K']; subst; apply in_map_iff in I; destruct I as (kv' & E & I); inversion E; subst; [apply D; now apply in_map|]. exact (proj2 (H _ I (W _ I)) _ K').
Qed.
(** C108 refuted, if equality was meant to be about the parameters: a namespace is never equal to the Parameters made from its own as_nested_dicts(), because of its prefix. *)
Theorem C108_namespace_copy_refuted : forall oeq m prefix p k ns, plain (PMap m) -> from_mapping (PMap m) prefix = Ok p -> namespace p k = Ok ns ->
  exists q, from_mapping (dictify ns) [] = Ok q /\ dictify q = dictify ns /\ peq oeq ns q = false.
Proof.
  intros oeq m prefix p k ns P E N. assert (Wp : wf p) by (apply (from_value_gives_wf (PMap m) (plain_mixed _ P) prefix); exact E).
  unfold namespace, get, private_get in N. destruct (walk p (py_split dot k)) as [v|] eqn:Ew; [|discriminate]. cbn [bind] in N. destruct (is_params v) eqn:Tv; [|discriminate]. injection N as ->.
  assert (Wn := walk_wf _ _ _ Wp Ew). apply (walk_reaches _ _ _ Wp) in Ew. destruct ns as [| | | | | | | | |pre d|]; try discriminate. assert (Epre := C41_prefixes m prefix p P E _ _ _ Ew).
  destruct (dictify_plain _ Wn) as (Pd & Dd). cbn [dictify] in *. destruct (C41_roundtrip _ [] Pd Dd) as (q & Eq & (Wq & Tq) & Dq & _). exists q. split; [exact Eq|]. split; [exact Dq|].
  destruct q as [| | | | | | | | |pre' d'|]; try discriminate. assert (pre' = []) as -> by (apply from_value_is_params in Eq; now destruct Eq).
  destruct (peq oeq (PParams pre d) (PParams [] d')) eqn:Q; [|reflexivity]. apply peq_params in Q. destruct Q as (Q & _). subst pre. apply app_eq_nil in Q. destruct Q as (_ & Q). destruct (py_split_nonnil dot k Q).
Qed.
(** C108 refuted, if equal objects were meant to be interchangeable: True == 1, so objects can be equal of which one has a boolean parameter and the other does not. *)
Theorem C108_boolean_refuted : forall oeq prefix k, dotless k -> exists p q, from_mapping (PMap [(k, PBool true)]) prefix = Ok p /\ from_mapping (PMap [(k, PInt 1)]) prefix = Ok q /\
  peq oeq p q = true /\ boolean p k PNone = Ok (PBool true) /\ boolean q k PNone = Raise ParameterError.
Proof.
  intros oeq prefix k D. exists (PParams prefix [(k, PBool true)]), (PParams prefix [(k, PInt 1)]).
  assert (Hd : has_dot k = false) by (destruct (has_dot k) eqn:E; [apply has_dot_spec in E; contradiction|reflexivity]).
  split; [|split; [|split; [|split]]].
  - cbn [from_mapping from_value bind mk_params existsb fst]. unfold mk_params. cbn [existsb fst]. now rewrite Hd.
  - cbn [from_mapping from_value bind mk_params existsb fst]. unfold mk_params. cbn [existsb fst]. now rewrite Hd.
  - apply peq_params. split; [reflexivity|]. unfold dict_eq. cbn [length Nat.eqb forallb dfind fst snd]. now rewrite str_eqb_refl.
  - unfold boolean, get, private_get. rewrite (split_dotless k D). cbn [walk dfind]. now rewrite str_eqb_refl.
  - unfold boolean, get, private_get. rewrite (split_dotless k D). cbn [walk dfind]. now rewrite str_eqb_refl.
Qed.
Print Assumptions C108_equality.
Print Assumptions C108_equivalence.
Print Assumptions C108_same_answers.
Print Assumptions C108_as_nested_dicts.
Print Assumptions C108_from_mapping.
Print Assumptions C108_namespace_copy_refuted.
Print Assumptions C108_boolean_refuted.

(** The hypotheses are met: two floats are equal when their codes are, unknown objects are when they are the same; the same nested configuration with its keys in different orders, and
    one with a different prefix. *)
Definition codes (a b : pv) : bool := match a, b with PFloat x, PFloat y | POther x, POther y => N.eqb x y | _, _ => false end.

Definition m108 : pv := PMap [(!!"x", PInt 1); (!!"a", PMap [(!!"f", PFloat 3); (!!"l", PList [PStr !!"u"; PNone])])].
Definition m108' : pv := PMap [(!!"a", PMap [(!!"l", PList [PStr !!"u"; PNone]); (!!"f", PFloat 3)]); (!!"x", PBool true)].
Definition p108 (pre : list str) : pv := PParams pre [(!!"x", PInt 1); (!!"a", PParams (pre ++ [!!"a"]) [(!!"f", PFloat 3); (!!"l", PList [PStr !!"u"; PNone])])].
Definition p108' (pre : list str) : pv := PParams pre [(!!"a", PParams (pre ++ [!!"a"]) [(!!"l", PList [PStr !!"u"; PNone]); (!!"f", PFloat 3)]); (!!"x", PBool true)].
Lemma codes_honest : honest codes.
Proof. intros v w E. destruct v, w; try discriminate E; split; reflexivity. Qed.
Lemma codes_fit : (forall a, foreign a = true -> codes a a = true) /\ (forall a b, codes a b = codes b a) /\
  (forall a b c, foreign a || foreign b || foreign c = true -> peq codes a b = true -> peq codes b c = true -> peq codes a c = true).
Proof.
  split; [|split].
  - intros a F. destruct a; try discriminate F; apply N.eqb_refl.
  - intros a b. destruct a, b; try reflexivity; apply N.eqb_sym.
  - intros a b c F A B. destruct a, b; try discriminate A; try discriminate F; destruct c; try discriminate B; try discriminate F; cbn in A, B |- *; rewrite N.eqb_eq in *; congruence.
Qed.
Example C108_witness : honest codes /\ plain m108 /\ plain m108' /\ peq codes m108 m108' = true /\ from_mapping m108 [!!"p"] = Ok (p108 [!!"p"]) /\ from_mapping m108' [!!"p"] = Ok (p108' [!!"p"]) /\
  wf_params (p108 [!!"p"]) /\ wf_params (p108' [!!"p"]) /\ peq codes (p108 [!!"p"]) (p108' [!!"p"]) = true /\ peq codes (p108 [!!"p"]) (p108 []) = false /\
  namespace (p108 []) !!"a" = Ok (PParams [!!"a"] [(!!"f", PFloat 3); (!!"l", PList [PStr !!"u"; PNone])]).
Proof.
  split; [exact codes_honest|]. split; [simpl; repeat split; repeat constructor; simpl; intuition discriminate|]. split; [simpl; repeat split; repeat constructor; simpl; intuition discriminate|].
  split; [reflexivity|]. split; [reflexivity|]. split; [reflexivity|].
  split; [split; [|reflexivity]; simpl; repeat split; repeat constructor; simpl; unfold dotless; simpl; intuition discriminate|].
  split; [split; [|reflexivity]; simpl; repeat split; repeat constructor; simpl; unfold dotless; simpl; intuition discriminate|].
  split; [reflexivity|]. split; reflexivity.
Qed.
Lemma dk_params_lit pre m : forallb (fun kv => match snd kv with PMap _ | PParams _ _ | PList _ => false | _ => true end) m = true -> NoDup (keys m) -> dicts_ok (PParams pre m).
Proof. intros F N. constructor; [assumption|]. intros k x I. rewrite forallb_forall in F. specialize (F _ I). cbn [snd] in F. apply dk_leaf. destruct x; try discriminate F; exact Logic.I. Qed.
Example C108_equivalence_witness : dicts_ok (PParams [] [(!!"x", PFloat 3); (!!"y", PInt 1)]) /\ dicts_ok (PParams [] [(!!"y", PBool true); (!!"x", PFloat 3)]) /\
  peq codes (PParams [] [(!!"x", PFloat 3); (!!"y", PInt 1)]) (PParams [] [(!!"y", PBool true); (!!"x", PFloat 3)]) = true.
Proof. split; [|split; [|reflexivity]]; (apply dk_params_lit; [reflexivity|]); simpl; repeat constructor; simpl; intuition discriminate. Qed.
