(** * Lemmas for the Parameters properties *)
From Verif Require Import Prelude PyStr SortLib Params ParamsSpec.

Lemma pv_ind_nested (P : pv -> Prop) :
  P PNone -> (forall b, P (PBool b)) -> (forall z, P (PInt z)) -> (forall f, P (PFloat f)) ->
  (forall s, P (PStr s)) -> (forall s, P (PPath s)) -> (forall s, P (PBytes s)) ->
  (forall l, Forall P l -> P (PList l)) ->
  (forall m, Forall (fun kv => P (snd kv)) m -> P (PMap m)) ->
  (forall pre m, Forall (fun kv => P (snd kv)) m -> P (PParams pre m)) ->
  (forall t, P (POther t)) -> forall v, P v.
Proof.
  intros H0 H1 H2 H3 H4 H5 H6 HL HM HP HO. fix F 1. intros [| b | z | f | s | s | s | l | m | pre m | t];
    [exact H0|apply H1|apply H2|apply H3|apply H4|apply H5|apply H6| | | |apply HO].
  - apply HL. induction l as [|x l IH]; constructor; [apply F|exact IH].
  - apply HM. induction m as [|x l IH]; constructor; [apply F|exact IH].
  - apply HP. induction m as [|x l IH]; constructor; [apply F|exact IH].
Qed.

(** ** dict facts *)
Lemma NoDup_app_intro_ {B} (l1 l2 : list B) : NoDup l1 -> NoDup l2 -> (forall x, In x l1 -> In x l2 -> False) -> NoDup (l1 ++ l2).
Proof.
  induction l1 as [|a l1 IH]; intros N1 N2 D; simpl; [assumption|]. inversion N1 as [|? ? Hn N']; subst. constructor.
  - rewrite in_app_iff. intros [H|H]; [contradiction|]. apply (D a); simpl; auto.
  - apply IH; auto. intros x H1 H2. apply (D x); simpl; auto.
Qed.
Lemma dfind_in {A} (d : list (str * A)) k v : dfind d k = Some v -> In (k, v) d.
Proof.
  induction d as [|[k' v'] d IH]; simpl; [discriminate|]. destruct (str_eqb k' k) eqn:E.
  - apply str_eqb_eq in E. intros H; injection H as <-. subst. now left.
  - intros H. right. auto.
Qed.
Lemma in_dfind {A} (d : list (str * A)) k v : NoDup (keys d) -> In (k, v) d -> dfind d k = Some v.
Proof.
  induction d as [|[k' v'] d IH]; simpl; intros N H; [tauto|]. inversion N as [|? ? Hn N']; subst. destruct H as [H|H].
  - injection H as -> ->. now rewrite str_eqb_refl.
  - destruct (str_eqb k' k) eqn:E; [|auto]. apply str_eqb_eq in E. subst. exfalso. apply Hn. apply in_map_iff. now exists (k, v).
Qed.
Lemma dfind_none {A} (d : list (str * A)) k : dfind d k = None <-> ~ In k (keys d).
Proof.
  induction d as [|[k' v'] d IH]; simpl; [tauto|]. destruct (str_eqb k' k) eqn:E.
  - apply str_eqb_eq in E. split; [discriminate|tauto].
  - apply str_eqb_neq in E. rewrite IH. tauto.
Qed.
Lemma dfind_some_key {A} (d : list (str * A)) k : In k (keys d) <-> exists v, dfind d k = Some v.
Proof.
  destruct (dfind d k) eqn:E.
  - split; [eauto|]. intros _. apply dfind_in in E. apply in_map_iff. now exists (k, a).
  - apply dfind_none in E. split; [tauto|]. intros (v & H). discriminate.
Qed.
Lemma dput_keys {A} (d : list (str * A)) k v : keys (dput d k v) = if in_dec (list_eq_dec N.eq_dec) k (keys d) then keys d else keys d ++ [k].
Proof.
  induction d as [|[k' v'] d IH]; simpl; [reflexivity|]. destruct (str_eqb k' k) eqn:E.
  - apply str_eqb_eq in E. subst. simpl. destruct (list_eq_dec N.eq_dec k k); [reflexivity|congruence].
  - apply str_eqb_neq in E. simpl. rewrite IH. destruct (list_eq_dec N.eq_dec k' k); [congruence|].
    unfold keys. destruct (in_dec (list_eq_dec N.eq_dec) k (map fst d)); reflexivity.
Qed.
Lemma dput_in_keys {A} (d : list (str * A)) k v k' : In k' (keys (dput d k v)) <-> k' = k \/ In k' (keys d).
Proof.
  rewrite dput_keys. destruct (in_dec (list_eq_dec N.eq_dec) k (keys d)) as [I|I].
  - split; [tauto|]. intros [->|H]; auto.
  - rewrite in_app_iff. simpl. intuition.
Qed.
Lemma dput_nodup {A} (d : list (str * A)) k v : NoDup (keys d) -> NoDup (keys (dput d k v)).
Proof.
  rewrite dput_keys. destruct (in_dec (list_eq_dec N.eq_dec) k (keys d)) as [I|I]; [auto|]. intros N.
  apply NoDup_app_intro_; auto; [constructor; [tauto|constructor]|]. intros x H [<-|[]]. contradiction.
Qed.
Lemma dfind_dput {A} (d : list (str * A)) k v k' : dfind (dput d k v) k' = if str_eqb k k' then Some v else dfind d k'.
Proof.
  induction d as [|[k1 v1] d IH]; simpl; [reflexivity|]. destruct (str_eqb k1 k) eqn:E.
  - apply str_eqb_eq in E. subst. simpl. destruct (str_eqb k k') eqn:E2; reflexivity.
  - simpl. rewrite IH. destruct (str_eqb k1 k') eqn:E2; [|reflexivity]. apply str_eqb_eq in E2. subst.
    destruct (str_eqb k k') eqn:E3; [|reflexivity]. apply str_eqb_eq in E3. subst. rewrite str_eqb_refl in E. discriminate.
Qed.
Lemma dput_fresh {A} (d : list (str * A)) k v : ~ In k (keys d) -> dput d k v = d ++ [(k, v)].
Proof.
  induction d as [|[k1 v1] d IH]; simpl; intros H; [reflexivity|]. destruct (str_eqb k1 k) eqn:E.
  - apply str_eqb_eq in E. tauto.
  - rewrite IH; tauto.
Qed.
Lemma dput_last {A} (d : list (str * A)) k v v' : ~ In k (keys d) -> dput (d ++ [(k, v)]) k v' = d ++ [(k, v')].
Proof.
  induction d as [|[k1 v1] d IH]; simpl; intros H.
  - now rewrite str_eqb_refl.
  - destruct (str_eqb k1 k) eqn:E; [apply str_eqb_eq in E; tauto|]. rewrite IH; tauto.
Qed.
Lemma dfind_last {A} (d : list (str * A)) k v : ~ In k (keys d) -> dfind (d ++ [(k, v)]) k = Some v.
Proof.
  induction d as [|[k1 v1] d IH]; simpl; intros H.
  - now rewrite str_eqb_refl.
  - destruct (str_eqb k1 k) eqn:E; [apply str_eqb_eq in E; tauto|]. apply IH; tauto.
Qed.

Lemma has_dot_spec k : has_dot k = true <-> In dot k.
Proof.
  unfold has_dot. rewrite existsb_exists. split.
  - intros (x & H & E). apply N.eqb_eq in E. now subst.
  - intros H. exists dot. split; [assumption|apply N.eqb_refl].
Qed.
Lemma dotless_dec k : dotless k \/ In dot k.
Proof. unfold dotless. destruct (has_dot k) eqn:E; [right; now apply has_dot_spec|left; intros H; apply has_dot_spec in H; congruence]. Qed.
Lemma mk_params_spec pre d r : mk_params pre d = r ->
  (Forall dotless (keys d) /\ r = Ok (PParams pre d)) \/ (Exists (fun k => In dot k) (keys d) /\ r = Raise ValueError).
Proof.
  unfold mk_params. destruct (existsb _ d) eqn:E; intros <-.
  - right. split; [|reflexivity]. apply existsb_exists in E. destruct E as (kv & H & K). apply has_dot_spec in K.
    apply Exists_exists. exists (fst kv). split; [now apply in_map|assumption].
  - left. split; [|reflexivity]. apply Forall_forall. intros k H K. apply in_map_iff in H. destruct H as (kv & <- & H).
    apply has_dot_spec in K. assert (existsb (fun kv => has_dot (fst kv)) d = true); [|congruence]. apply existsb_exists. eauto.
Qed.

Lemma keys_map {A B} (f : A -> B) (d : list (str * A)) : keys (map (fun kv => (fst kv, f (snd kv))) d) = keys d.
Proof. unfold keys. rewrite map_map. reflexivity. Qed.
Lemma plain_map m : plain (PMap m) <-> NoDup (keys m) /\ Forall (fun kv => plain (snd kv)) m.
Proof.
  simpl. assert (((fix all (m0 : data_t) : Prop := match m0 with [] => True | (_, x) :: r => plain x /\ all r end) m) <-> Forall (fun kv => plain (snd kv)) m) as ->; [|tauto].
  induction m as [|[k x] m IH]; [split; constructor|]. rewrite IH. split.
  - intros [H1 H2]. now constructor.
  - intros H. inversion H; subst. auto.
Qed.
Lemma wf_map pre m : wf (PParams pre m) <-> NoDup (keys m) /\ Forall dotless (keys m) /\ Forall (fun kv => wf (snd kv)) m.
Proof.
  simpl. assert (((fix all (m0 : data_t) : Prop := match m0 with [] => True | (_, x) :: r => wf x /\ all r end) m) <-> Forall (fun kv => wf (snd kv)) m) as ->; [|tauto].
  induction m as [|[k x] m IH]; [split; constructor|]. rewrite IH. split.
  - intros [H1 H2]. now constructor.
  - intros H. inversion H; subst. auto.
Qed.

(** ** from_mapping *)
Definition from_item (pre : list str) (kv : str * pv) : res (str * pv) :=
  let* x := from_value (pre ++ [fst kv]) (snd kv) in Ok (fst kv, x).
Lemma from_value_map pre m : from_value pre (PMap m) = let* d := mapM (from_item pre) m in mk_params pre d.
Proof.
  simpl. f_equal. induction m as [|[k x] m IH]; [reflexivity|]. simpl. unfold from_item at 1. simpl.
  destruct (from_value (pre ++ [k]) x); [|reflexivity]. simpl. now rewrite IH.
Qed.

Lemma from_item_keys pre m d : mapM (from_item pre) m = Ok d -> keys d = keys m.
Proof.
  rewrite mapM_ok. induction 1 as [|[k x] [k' x'] m d H _ IH]; [reflexivity|]. simpl. f_equal; [|exact IH].
  unfold from_item in H. simpl in H. destruct (from_value _ x); simpl in H; congruence.
Qed.
Lemma from_item_find pre m d : mapM (from_item pre) m = Ok d -> forall k,
  match dfind m k with
  | Some x => exists y, from_value (pre ++ [k]) x = Ok y /\ dfind d k = Some y
  | None => dfind d k = None
  end.
Proof.
  rewrite mapM_ok. induction 1 as [|[k x] [k' x'] m d H _ IH]; intros q; [reflexivity|]. simpl.
  unfold from_item in H. simpl in H. destruct (from_value _ x) eqn:E; simpl in H; [|discriminate]. injection H as <- <-.
  destruct (str_eqb k q) eqn:EQ; [|apply IH]. apply str_eqb_eq in EQ. subst. eauto.
Qed.

Lemma from_value_leaf pre v : (forall m, v <> PMap m) -> from_value pre v = Ok v.
Proof. destruct v; try reflexivity. intros H. now destruct (H m). Qed.

(** The value tree [from_value] is applied to, in unify: dicts already Parameters. *)
Lemma from_value_wf v : wf v -> forall pre, from_value pre v = Ok v.
Proof. destruct v; simpl; tauto. Qed.

Lemma from_value_view v : forall pre p, from_value pre v = Ok p -> forall q, view p q = view v q.
Proof.
  induction v using pv_ind_nested; intros pre' p E q; try (simpl in E; injection E as <-; reflexivity).
  rewrite from_value_map in E. apply bind_ok in E. destruct E as (d & E & F).
  destruct (mk_params_spec _ _ _ F) as [[_ X]|[_ X]]; [|discriminate]. injection X as ->. destruct q as [|k q]; [reflexivity|].
  simpl. pose proof (from_item_find _ _ _ E k) as G. destruct (dfind m k) as [x|] eqn:Ex.
  - destruct G as (y & E2 & ->). apply dfind_in in Ex. rewrite Forall_forall in H. apply (H _ Ex _ _ E2).
  - now rewrite G.
Qed.

Lemma from_value_dictify v : plain v -> forall pre p, from_value pre v = Ok p -> dictify p = v.
Proof.
  induction v using pv_ind_nested; intros PL pre' p E; try (simpl in E; injection E as <-; reflexivity); [|now simpl in PL].
  rewrite from_value_map in E. apply bind_ok in E. destruct E as (d & E & F).
  destruct (mk_params_spec _ _ _ F) as [[_ X]|[_ X]]; [|discriminate]. injection X as ->. simpl. f_equal.
  apply plain_map in PL. destruct PL as [_ PL]. rewrite mapM_ok in E. clear F.
  induction E as [|[k x] [k' x'] m d E1 _ IH]; [reflexivity|]. inversion H as [|? ? H1 H2]; subst. inversion PL as [|? ? P1 P2]; subst.
  simpl. rewrite IH by assumption. f_equal. unfold from_item in E1. simpl in *. destruct (from_value _ x) eqn:E; simpl in E1; [|discriminate].
  injection E1 as <- <-. f_equal. eapply H1; eauto.
Qed.

Lemma from_value_total v : (forall k, nested_key v k -> dotless k) -> forall pre, exists p, from_value pre v = Ok p.
Proof.
  induction v using pv_ind_nested; intros D pre'; try (eexists; reflexivity).
  rewrite from_value_map. assert (exists d, mapM (from_item pre') m = Ok d) as (d & E).
  { clear - H D. induction m as [|[k x] m IH]; [eexists; reflexivity|]. inversion H as [|? ? H1 H2]; subst.
    destruct IH as (d & E); [assumption|intros k' K; apply D|].
    - inversion K; subst; [eapply nk_here|eapply nk_there]; try eassumption; simpl; eauto.
    - simpl in H1. destruct (H1 (fun k' K => D k' (nk_there ((k, x) :: m) k x k' (or_introl eq_refl) K)) (pre' ++ [k])) as (y & Ey).
      exists ((k, y) :: d). simpl. unfold from_item at 1. simpl. rewrite Ey. simpl. now rewrite E. }
  rewrite E. simpl. destruct (mk_params_spec pre' d _ eq_refl) as [[_ X]|[X _]]; [eauto|]. exfalso.
  rewrite (from_item_keys _ _ _ E) in X. apply Exists_exists in X. destruct X as (k & X & Y).
  apply in_map_iff in X. destruct X as ([k' x] & <- & X). apply (D k'); [|assumption]. eapply nk_here; eauto.
Qed.
Lemma from_value_raise v : forall pre e, from_value pre v = Raise e -> e = ValueError /\ exists k, nested_key v k /\ In dot k.
Proof.
  induction v using pv_ind_nested; intros pre' e E; try discriminate.
  rewrite from_value_map in E. destruct (mapM (from_item pre') m) as [d|e'] eqn:Em; simpl in E.
  - destruct (mk_params_spec _ _ _ E) as [[_ X]|[X Y]]; [discriminate|]. injection Y as ->. split; [reflexivity|].
    rewrite (from_item_keys _ _ _ Em) in X. apply Exists_exists in X. destruct X as (k & X & Y).
    apply in_map_iff in X. destruct X as ([k' x] & <- & X). exists k'. split; [eapply nk_here; eauto|assumption].
  - injection E as ->. clear -H Em. revert Em. induction m as [|[k x] m IH]; [discriminate|]. inversion H as [|? ? H1 H2]; subst.
    simpl. unfold from_item at 1. simpl. destruct (from_value (pre' ++ [k]) x) eqn:Ex; simpl.
    + destruct (mapM (from_item pre') m) eqn:Em; simpl; [discriminate|]. intros G; injection G as ->.
      destruct (IH H2 eq_refl) as (-> & k' & K1 & K2). split; [reflexivity|]. exists k'. split; [|assumption].
      inversion K1; subst; [eapply nk_here|eapply nk_there]; try eassumption; simpl; eauto.
    + intros G; injection G as ->. destruct (H1 _ _ Ex) as (-> & k' & K1 & K2). split; [reflexivity|]. exists k'. split; [|assumption].
      eapply nk_there; [simpl; eauto|assumption].
Qed.
Lemma from_value_nodots v : forall pre p, from_value pre v = Ok p -> forall k, nested_key v k -> dotless k.
Proof.
  induction v using pv_ind_nested; intros pre' p E k K; try (inversion K; fail).
  rewrite from_value_map in E. apply bind_ok in E. destruct E as (d & E & F).
  destruct (mk_params_spec _ _ _ F) as [[Y X]|[_ X]]; [|discriminate]. rewrite (from_item_keys _ _ _ E) in Y.
  rewrite Forall_forall in Y. inversion K as [? ? x I|? k1 x ? I K']; subst.
  - apply Y. apply in_map_iff. now exists (k, x).
  - rewrite Forall_forall in H. rewrite mapM_ok in E. assert (exists y, from_value (pre' ++ [k1]) x = Ok y) as (y & Ey).
    { clear -E I. induction E as [|[a b] [a' b'] m d E1 _ IH]; [destruct I|]. simpl in I. destruct I as [I|I]; [|auto].
      injection I as -> ->. unfold from_item in E1. simpl in E1. destruct (from_value _ x); [eauto|discriminate]. }
    apply (H _ I _ _ Ey _ K').
Qed.

(** dict trees whose dict keys are distinct and whose embedded Parameters are well-formed *)
Fixpoint mixed (t : pv) : Prop :=
  match t with
  | PMap m => NoDup (keys m) /\
              (fix all (m : data_t) : Prop := match m with [] => True | (_, x) :: r => mixed x /\ all r end) m
  | PParams _ _ => wf t
  | _ => True
  end.
Lemma mixed_map m : mixed (PMap m) <-> NoDup (keys m) /\ Forall (fun kv => mixed (snd kv)) m.
Proof.
  simpl. assert (((fix all (m0 : data_t) : Prop := match m0 with [] => True | (_, x) :: r => mixed x /\ all r end) m) <-> Forall (fun kv => mixed (snd kv)) m) as ->; [|tauto].
  induction m as [|[k x] m IH]; [split; constructor|]. rewrite IH. split.
  - intros [H1 H2]. now constructor.
  - intros H. inversion H; subst. auto.
Qed.
Lemma plain_mixed v : plain v -> mixed v.
Proof.
  induction v using pv_ind_nested; try exact (fun _ => I); [|now simpl].
  rewrite plain_map, mixed_map. intros [N P]. split; [assumption|]. rewrite Forall_forall in *. intros kv K. auto.
Qed.
Lemma wf_mixed v : wf v -> mixed v.
Proof. destruct v; try exact (fun _ => I); [intros []|]. exact (fun H => H). Qed.
Lemma from_value_gives_wf v : mixed v -> forall pre p, from_value pre v = Ok p -> wf p.
Proof.
  induction v using pv_ind_nested; intros PL pre' p E; try (simpl in E; injection E as <-; exact I); [|simpl in E; injection E as <-; exact PL].
  rewrite from_value_map in E. apply bind_ok in E. destruct E as (d & E & F).
  destruct (mk_params_spec _ _ _ F) as [[D X]|[_ X]]; [|discriminate]. injection X as ->.
  apply mixed_map in PL. destruct PL as [N PL]. apply wf_map. rewrite (from_item_keys _ _ _ E) in *. split; [assumption|]. split; [assumption|].
  rewrite mapM_ok in E. clear F N D. induction E as [|[k x] [k' x'] m d E1 _ IH]; [constructor|].
  inversion H as [|? ? H1 H2]; subst. inversion PL as [|? ? P1 P2]; subst. constructor; [|auto].
  unfold from_item in E1. simpl in *. destruct (from_value _ x) eqn:E; simpl in E1; [|discriminate].
  injection E1 as <- <-. eapply H1; eauto.
Qed.
Lemma from_value_is_params m pre p : from_value pre (PMap m) = Ok p -> is_params p = true /\ params_prefix p = pre.
Proof.
  rewrite from_value_map. intros E. apply bind_ok in E. destruct E as (d & _ & F).
  destruct (mk_params_spec _ _ _ F) as [[D X]|[_ X]]; [|discriminate]. injection X as ->. auto.
Qed.

(** ** lookups *)
Lemma wf_find pre d k x : wf (PParams pre d) -> dfind d k = Some x -> wf x.
Proof. rewrite wf_map. intros (_ & _ & W) H. apply dfind_in in H. rewrite Forall_forall in W. apply (W _ H). Qed.
Lemma view_leaf_walk p q : forall v, view p q = Some (Leaf v) -> wf p -> walk p q = Some v.
Proof.
  revert p. induction q as [|k q IH]; intros p v H W; simpl in *.
  - destruct p; simpl in *; congruence.
  - destruct p; try discriminate; [now simpl in W|]. destruct (dfind data k) eqn:E; [|discriminate]. eapply IH; eauto. eapply wf_find; eauto.
Qed.
Lemma walk_view p q : wf p -> view p q = match walk p q with
  | Some v => Some (if is_params v then Namespace else Leaf v) | None => None end.
Proof.
  revert p. induction q as [|k q IH]; intros p W; simpl.
  - destruct p; simpl in *; tauto || reflexivity.
  - destruct p; try reflexivity; [now simpl in W|]. destruct (dfind data k) eqn:E; [|reflexivity]. apply IH. eapply wf_find; eauto.
Qed.
Lemma split_dotless k : dotless k -> py_split dot k = [k].
Proof. apply py_split_no. Qed.
Lemma contains_key pre d k : dotless k ->
  contains (PParams pre d) k = match dfind d k with Some v => negb (is_none v) | None => false end.
Proof.
  intros H. unfold contains, private_get. rewrite split_dotless by assumption. simpl. destruct (dfind d k); reflexivity.
Qed.
