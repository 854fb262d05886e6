(** * Properties C49, C51, C52: loading parameter files *)
From Verif Require Import Prelude PyStr Params ParamsSpec ParamsProofs ParamsUnify ParamsGet Interp InterpSpec InterpProofs InterpWf InterpProps Load LoadSpec.

(** ** Keys *)
Lemma yaml_ind_nested (P : yaml -> Prop) :
  (forall v, P (YLeaf v)) -> (forall l, P (YList l)) -> (forall m, Forall (fun kv => P (snd kv)) m -> P (YMap m)) -> forall y, P y.
Proof.
  intros H1 H2 H3. fix F 1. intros [v|l|m]; [apply H1|apply H2|]. apply H3. induction m as [|[k v] m IH]; constructor; [apply F|exact IH].
Qed.
Lemma check_keys_map m : check_keys (YMap m) = if forallb (fun kv => key_is_str (fst kv)) m then let* _ := mapM (fun kv => check_keys (snd kv)) m in Ok tt else Raise IOError.
Proof.
  simpl. destruct (forallb _ m); [|reflexivity]. induction m as [|[k v] m IH]; [reflexivity|]. simpl. destruct (check_keys v); [|reflexivity]. simpl. rewrite IH.
  now destruct (mapM _ m).
Qed.
Lemma forallb_str m : forallb (fun kv : ykey * yaml => key_is_str (fst kv)) m = true <-> forall k v, In (k, v) m -> exists s, k = KStr s.
Proof.
  rewrite forallb_forall. split.
  - intros H k v I. specialize (H _ I). simpl in H. destruct k; [eauto|discriminate].
  - intros H [k v] I. destruct (H _ _ I) as (s & ->). reflexivity.
Qed.
Lemma check_keys_spec y : match check_keys y with Ok _ => string_keys y | Raise e => e = IOError /\ ~ string_keys y end.
Proof.
  induction y as [v|l|m IH] using yaml_ind_nested; try constructor. rewrite check_keys_map. destruct (forallb _ m) eqn:F.
  - assert (forall k v, In (k, v) m -> exists s, k = KStr s) as K by (now apply forallb_str).
    assert (match mapM (fun kv => check_keys (snd kv)) m with Ok _ => Forall (fun kv => string_keys (snd kv)) m | Raise e => e = IOError /\ Exists (fun kv => ~ string_keys (snd kv)) m end) as H.
    { clear K F. induction m as [|[k v] m IHm]; [constructor|]. inversion IH as [|? ? H1 H2]; subst. specialize (IHm H2). simpl in *. destruct (check_keys v); simpl.
      - destruct (mapM _ m); simpl; [now constructor|]. destruct IHm. split; [assumption|]. now right.
      - destruct H1. split; [assumption|]. now left. }
    destruct (mapM _ m); simpl.
    + constructor. intros k v I. split; [eauto|]. rewrite Forall_forall in H. exact (H _ I).
    + destruct H as [-> H]. split; [reflexivity|]. intros S. inversion S as [| |? S']; subst. apply Exists_exists in H. destruct H as ([k v] & I & N). apply N. now apply (S' k v).
  - split; [reflexivity|]. intros S. inversion S as [| |? S']; subst. enough (forallb (fun kv : ykey * yaml => key_is_str (fst kv)) m = true) by congruence. apply forallb_str.
    intros k v I. now apply (S' k v).
Qed.
(** C52: the content is accepted by the key check exactly when it is a dict all of whose keys, and the keys of
    the dicts nested in it, are strings. *)
Theorem C52_key_check : forall y,
  (validate y = Ok tt <-> (exists m, y = YMap m) /\ string_keys y) /\
  (forall m, y = YMap m -> ~ string_keys y -> validate y = Raise IOError) /\
  ((forall m, y <> YMap m) -> validate y = Raise ValueError).
Proof.
  intros y. pose proof (check_keys_spec y) as H. split; [|split].
  - split.
    + destruct y as [v|l|m]; try discriminate. cbn [validate]. intros E. rewrite E in H. split; [eauto|assumption].
    + intros [(m & ->) S]. cbn [validate]. destruct (check_keys (YMap m)) as [[]|]; [reflexivity|]. tauto.
  - intros m -> N. cbn [validate]. destruct (check_keys (YMap m)) as [[]|]; [tauto|]. destruct H as [-> _]. reflexivity.
  - intros N. destruct y as [v|l|m]; try reflexivity. now destruct (N m).
Qed.
Print Assumptions C52_key_check.

(** A checked dict is a plain nested dict. *)
Lemma to_pv_map m : (forall k v, In (k, v) m -> exists s, k = KStr s) ->
  to_pv (YMap m) = PMap (flat_map (fun kv => match fst kv with KStr k => [(k, to_pv (snd kv))] | KOther _ => [] end) m).
Proof. intros H. simpl. now rewrite (proj2 (forallb_str m) H). Qed.
Lemma to_pv_plain y : yaml_wf y -> string_keys y -> plain (to_pv y).
Proof.
  induction y as [v|l|m IH] using yaml_ind_nested; intros W S.
  - inversion W; subst. simpl. destruct v; simpl in *; tauto.
  - exact Logic.I.
  - inversion S as [| |? S']; subst. inversion W as [| |? N W']; subst. rewrite to_pv_map by (intros k v I; now apply (S' k v)). apply plain_map. split.
    + clear S W W' IH. induction m as [|[k v] m IHm]; [constructor|]. inversion N as [|? ? N1 N2]; subst. destruct (S' k v) as [(s & ->) _]; [simpl; auto|]. simpl. constructor.
      * intros I. apply in_map_iff in I. destruct I as ([k' v'] & E & I). simpl in E. subst k'. apply in_flat_map in I. destruct I as ([k2 v2] & I & J). simpl in J.
        destruct k2; [|now destruct J]. destruct J as [J|[]]. injection J as -> _. apply N1. apply in_map_iff. now exists (KStr s, v2).
      * apply IHm; [intros k v0 I; apply S'; simpl; auto|assumption].
    + apply Forall_forall. intros [k v] I. apply in_flat_map in I. destruct I as ([k2 v2] & I & J). simpl in J. destruct k2; [|now destruct J]. destruct J as [J|[]].
      injection J as -> <-. rewrite Forall_forall in IH. apply (IH _ I); [eapply W'; eauto|now apply (S' (KStr k) v2)].
Qed.

(** ** Dicts *)
Lemma ddrop_find {A} (d : list (str * A)) k k' : dfind (ddrop d k) k' = if str_eqb k k' then None else dfind d k'.
Proof.
  induction d as [|[k1 v1] d IH]; simpl; [now destruct (str_eqb k k')|]. destruct (str_eqb k1 k) eqn:E.
  - apply str_eqb_eq in E. subst. rewrite IH. now destruct (str_eqb k k').
  - simpl. rewrite IH. destruct (str_eqb k1 k') eqn:E2; [|reflexivity]. apply str_eqb_eq in E2. subst. destruct (str_eqb k k') eqn:E3; [|reflexivity].
    apply str_eqb_eq in E3. subst. rewrite str_eqb_refl in E. discriminate.
Qed.
Lemma ddrop_in {A} (d : list (str * A)) k e : In e (ddrop d k) -> In e d.
Proof. induction d as [|[k1 v1] d IH]; simpl; [tauto|]. destruct (str_eqb k1 k); simpl; tauto. Qed.
Lemma ddrop_nodup {A} (d : list (str * A)) k : NoDup (keys d) -> NoDup (keys (ddrop d k)).
Proof.
  induction d as [|[k1 v1] d IH]; simpl; intros N; [constructor|]. inversion N as [|? ? N1 N2]; subst. destruct (str_eqb k1 k); [auto|]. simpl. constructor; [|auto].
  intros I. apply N1. apply in_map_iff in I. destruct I as (e & E & I). apply in_map_iff. exists e. split; [assumption|]. eapply ddrop_in; eauto.
Qed.
Lemma own_params_drop m raw : to_pv raw = PMap m -> plain (PMap m) -> own_parameters raw (ddrop m includes_key).
Proof.
  intros E PL. assert (PL' := PL). apply plain_map in PL'. destruct PL' as [N P]. split.
  - apply plain_map. split; [now apply ddrop_nodup|]. rewrite Forall_forall in *. intros e I. apply P. eapply ddrop_in; eauto.
  - intros [|k q]; [reflexivity|]. rewrite E. cbn [view]. rewrite ddrop_find. destruct (str_eqb k includes_key) eqn:K.
    + apply str_eqb_eq in K. subst k. now rewrite str_eqb_refl.
    + apply str_eqb_neq in K. destruct (str_eqb includes_key k) eqn:K2; [apply str_eqb_eq in K2; congruence|reflexivity].
Qed.

(** ** The environment *)
Lemma add_environ_find environ : forall d k, dfind (add_environ environ d) k = match dfind d k with Some v => Some v | None => match dfind environ k with Some v => Some (PStr v) | None => None end end.
Proof.
  unfold add_environ. induction environ as [|[k1 v1] env IH]; intros d k; simpl; [now destruct (dfind d k)|]. rewrite IH. destruct (dfind d k1) as [x|] eqn:D.
  - destruct (str_eqb k1 k) eqn:E; [|reflexivity]. apply str_eqb_eq in E. subst. now rewrite D.
  - rewrite dfind_dput. destruct (str_eqb k1 k) eqn:E; [|reflexivity]. apply str_eqb_eq in E. subst. now rewrite D.
Qed.
Lemma add_environ_nodup environ : forall d, NoDup (keys d) -> NoDup (keys (add_environ environ d)).
Proof.
  unfold add_environ. induction environ as [|[k1 v1] env IH]; intros d N; simpl; [assumption|]. apply IH. destruct (dfind d k1); [assumption|]. now apply dput_nodup.
Qed.
Lemma dictify_plain v : wf v -> plain (dictify v).
Proof.
  induction v using pv_ind_nested; intros W; try exact Logic.I; [now simpl in W|]. apply wf_map in W. destruct W as (N & _ & F). cbn [dictify]. apply plain_map. split.
  - now rewrite keys_map.
  - rewrite Forall_forall in *. intros e I. apply in_map_iff in I. destruct I as (x & <- & I). simpl. auto.
Qed.
Lemma dfind_map {A B} (f : A -> B) d k : dfind (map (fun kv => (fst kv, f (snd kv))) d) k = match dfind d k with Some v => Some (f v) | None => None end.
Proof. induction d as [|[k1 v1] d IH]; simpl; [reflexivity|]. now destruct (str_eqb k1 k). Qed.
Lemma dictify_view v : wf v -> forall q, view (dictify v) q = view v q.
Proof.
  induction v using pv_ind_nested; intros W q; try reflexivity. destruct q as [|k q]; [reflexivity|]. cbn [dictify view]. rewrite dfind_map.
  destruct (dfind m k) as [x|] eqn:E; [|reflexivity]. apply dfind_in in E. apply wf_map in W. destruct W as (_ & _ & F). rewrite Forall_forall in *. apply (H _ E). exact (F _ E).
Qed.
Lemma dictify_params p : is_params p = true -> dictify p = PMap (as_dict (dictify p)).
Proof. destruct p; try discriminate. reflexivity. Qed.

(** ** Merging *)
Lemma merged_app a b q : merged (a ++ b) q = fold_left (fun old c => merge1 old (view c q)) b (merged a q).
Proof. unfold merged. apply fold_left_app. Qed.
Lemma merged_one c q : merged [c] q = view c q.
Proof. unfold merged. simpl. destruct (view c q) as [[|[]]|]; reflexivity. Qed.
Lemma merged_snoc a c q : merged (a ++ [c]) q = merge1 (merged a q) (view c q).
Proof. now rewrite merged_app. Qed.
Definition ext (a b : pv) : Prop := forall q, merge1 (view a q) (view b q) = view b q /\ ~ clash a b q.
Lemma ext_refl a : ext a a.
Proof.
  intros q. split; [destruct (view a q) as [[|[]]|]; reflexivity|]. intros [(v & H & K)|(v & H & K & _)]; congruence.
Qed.
Lemma ext_ns a b q : ext a b -> view a q = Some Namespace -> view b q = Some Namespace.
Proof.
  intros E H. destruct (E q) as [M C]. rewrite H in M. destruct (view b q) as [[|v]|] eqn:V; [reflexivity| |discriminate]. exfalso.
  destruct (is_none v) eqn:N; [apply is_none_eq in N; subst; discriminate|]. apply is_none_neq in N. apply C. right. eauto.
Qed.
Lemma ext_leaf a b q v : ext a b -> view a q = Some (Leaf v) -> exists w, view b q = Some (Leaf w) /\ (w = PNone -> v = PNone).
Proof.
  intros E H. destruct (E q) as [M C]. rewrite H in M. destruct (view b q) as [[|w]|] eqn:V; [|exists w; split; [reflexivity|]|discriminate].
  - exfalso. apply C. left. eauto.
  - intros ->. simpl in M. congruence.
Qed.
Lemma ext_trans a b c : ext a b -> ext b c -> ext a c.
Proof.
  intros E1 E2 q. destruct (view a q) as [[|v]|] eqn:V.
  - rewrite (ext_ns _ _ _ E2 (ext_ns _ _ _ E1 V)). split; [reflexivity|]. intros [(x & H & K)|(x & H & K & _)]; [congruence|]. rewrite (ext_ns _ _ _ E2 (ext_ns _ _ _ E1 V)) in K. discriminate.
  - destruct (ext_leaf _ _ _ _ E1 V) as (w & Vw & Nw). destruct (ext_leaf _ _ _ _ E2 Vw) as (x & Vx & Nx). rewrite Vx. split.
    + destruct (is_none x) eqn:N; [apply is_none_eq in N; subst; rewrite Nw by auto; reflexivity|]. destruct x; try reflexivity. discriminate.
    + intros [(y & H & K)|(y & H & K & _)]; congruence.
  - split; [destruct (view c q) as [[|[]]|]; reflexivity|]. intros [(y & H & K)|(y & H & K & _)]; congruence.
Qed.
Lemma unify_ext a b ns r : wf_params a -> wf_params b -> unify a b ns = Ok r -> ext a r.
Proof.
  intros Wa Wb E. pose proof (unify_correct a b ns Wa Wb) as H. rewrite E in H. destruct H as (_ & _ & V & NC). intros q. rewrite V. specialize (NC q). split.
  - destruct (view a q) as [[|[]]|], (view b q) as [[|[]]|]; reflexivity.
  - intros [(v & H & K)|(v & H & K & N)]; apply NC; rewrite V, H in *.
    + left. exists v. split; [assumption|]. destruct (view b q) as [[|[]]|]; simpl in K; congruence.
    + right. exists v. split; [assumption|]. split; [|assumption]. destruct (view b q) as [[|[]]|]; simpl in K; congruence.
Qed.
Lemma unify_of_ext a b ns : wf_params a -> wf_params b -> ext a b -> exists r, unify a b ns = Ok r /\ wf_params r /\ forall q, view r q = view b q.
Proof.
  intros Wa Wb E. pose proof (unify_correct a b ns Wa Wb) as H. destruct (unify a b ns) as [r|e].
  - exists r. destruct H as (W & _ & V & _). split; [reflexivity|]. split; [assumption|]. intros q. rewrite V. apply E.
  - exfalso. destruct H as (_ & q & C). now apply (E q).
Qed.

Section P.
Variable is_word : N -> bool.
Variable ft : N -> bool.
Variable read : str -> res str.
Variable parse : str -> res yaml.
Variable resolve : str -> str -> res str.
Variable parent : str -> str.
Variable environ : list (str * str).
Hypothesis parse_wf : forall text y, parse text = Ok y -> yaml_wf y.
Notation inner_load := (inner_load is_word ft read parse resolve parent environ).
Notation Loads := (Loads is_word ft read parse resolve parent environ).
Notation Included := (Included is_word ft read parse resolve parent environ).
Notation fallback := (fallback environ).

Lemma wrap_ok {A} (r : res A) a : wrap r = Ok a -> r = Ok a.
Proof. destruct r; simpl; congruence. Qed.
(** C51/C49: all failures of loading the content are IOErrors. *)
Theorem C51_failures_are_IOErrors : forall fuel content ctx base ns e, inner_load (S fuel) content ctx base ns = Raise e -> e = IOError.
Proof. intros fuel content ctx base ns e E. cbn [Load.inner_load] in E. match type of E with wrap ?r = _ => destruct r end; simpl in E; congruence. Qed.

Lemma root_view p : is_params p = true -> view p [] = Some Namespace.
Proof. destruct p; try discriminate. reflexivity. Qed.
(** The interpolation context. *)
Lemma context_view prev before c : wf_params prev -> (forall q, view prev q = merged before q) ->
  from_mapping (PMap (add_environ environ (as_dict (dictify prev)))) [] = Ok c ->
  wf_params c /\ params_prefix c = [] /\ forall q, view c q = fallback before q.
Proof.
  intros [W IP] V E. assert (PD := dictify_plain _ W). rewrite (dictify_params _ IP) in PD. apply plain_map in PD. destruct PD as [N F].
  assert (forall k x, dfind (add_environ environ (as_dict (dictify prev))) k = Some x -> plain x) as P.
  { intros k x. rewrite add_environ_find. destruct (dfind (as_dict (dictify prev)) k) eqn:D; [|destruct (dfind environ k); intros K; [injection K as <-; exact Logic.I|discriminate]].
    intros K. injection K as <-. apply dfind_in in D. rewrite Forall_forall in F. exact (F _ D). }
  assert (NoDup (keys (add_environ environ (as_dict (dictify prev))))) as N2 by (now apply add_environ_nodup).
  split; [|split].
  - destruct (from_value_is_params _ _ _ E) as [I _]. split; [|assumption]. eapply from_value_gives_wf; [|exact E]. apply plain_mixed. apply plain_map. split; [assumption|].
    apply Forall_forall. intros [k x] I'. apply (P k). now apply in_dfind.
  - now apply (from_value_is_params _ _ _ E).
  - intros q. rewrite (from_value_view _ _ _ E). destruct q as [|k q]; [reflexivity|]. cbn [view]. rewrite add_environ_find. unfold LoadSpec.fallback.
    rewrite <- !V, <- !(dictify_view _ W). pose proof (dictify_params _ IP) as DP. set (D := as_dict (dictify prev)) in *. clearbody D. rewrite DP. cbn [view]. destruct (dfind D k); [reflexivity|]. now destruct (dfind environ k).
Qed.
Definition good_result (before : list pv) (cs : list pv) (prev R : pv) : Prop :=
  wf_params R /\ (forall q, view R q = merged cs q) /\ ext prev R.
Lemma load_sound fuel : forall content ctx base ns R before, wf_params ctx -> (forall q, view ctx q = merged before q) ->
  inner_load fuel content ctx base ns = Ok R ->
  exists mid c, Loads before base content (mid ++ [c]) /\ wf_params R /\ params_prefix R = ns /\ (forall q, view R q = merged (mid ++ [c]) q) /\ ext ctx R.
Proof using parse_wf.
  induction fuel as [|f IH]; intros content ctx base ns R before WC VC E; [discriminate|]. cbn [Load.inner_load] in E. apply wrap_ok in E.
  apply bind_ok in E. destruct E as (raw & Ep & E). apply bind_ok in E. destruct E as ([] & Ev & E). cbv zeta in E.
  apply C52_key_check in Ev. destruct Ev as [(ym & ->) Sk]. assert (Wy := parse_wf _ _ Ep). assert (PL := to_pv_plain _ Wy Sk).
  assert (exists m, to_pv (YMap ym) = PMap m) as (m & Em). { inversion Sk as [| |? S']; subst. rewrite to_pv_map by (intros k v I; now apply (S' k v)). eauto. }
  rewrite Em in E, PL. cbn [as_dict] in E. apply bind_ok in E. destruct E as (prev & Eprev & E).
  assert (exists incs mid, include_list (YMap ym) incs /\ Included before base incs mid /\ wf_params prev /\ (forall q, view prev q = merged mid q) /\ ext ctx prev) as (incs & mid & IL & Inc & Wp & Vp & Xp).
  { destruct (dfind m includes_key) as [v|] eqn:D.
    - apply bind_ok in Eprev. destruct Eprev as (incs & Ei & Eprev). exists incs.
      assert (include_list (YMap ym) incs) as IL by (exists m; split; [assumption|]; now rewrite D).
      clear D Ei. assert (forall incs ctx before, wf_params ctx -> (forall q, view ctx q = merged before q) ->
        foldM (fun prev inc => let* path := locate resolve base inc in let* text := read path in let* loaded := inner_load f text prev (Some (parent path)) [] in unify prev loaded []) incs ctx = Ok prev ->
        exists mid, Included before base incs mid /\ wf_params prev /\ (forall q, view prev q = merged mid q) /\ ext ctx prev) as L.
      { clear -IH parse_wf. induction incs as [|i incs IHi]; intros ctx before WC VC E.
        - injection E as <-. exists before. split; [constructor|]. split; [assumption|]. split; [assumption|]. apply ext_refl.
        - cbn [foldM] in E. apply bind_ok in E. destruct E as (p1 & E1 & E). apply bind_ok in E1. destruct E1 as (path & El & E1). apply bind_ok in E1. destruct E1 as (text & Er & E1).
          apply bind_ok in E1. destruct E1 as (loaded & Ed & E1). destruct (IH _ _ _ _ _ _ WC VC Ed) as (mid1 & c1 & Ls & Wl & _ & Vl & Xl).
          destruct (unify_of_ext ctx loaded [] WC Wl Xl) as (r & Er1 & Wr & Vr). rewrite E1 in Er1. injection Er1 as <-.
          destruct (IHi p1 (mid1 ++ [c1])) as (mid2 & I2 & W2 & V2 & X2); [assumption|intros q; now rewrite Vr|assumption|].
          exists mid2. split; [econstructor; eauto|]. split; [assumption|]. split; [assumption|]. eapply ext_trans; [|exact X2].
          intros q. rewrite Vr. specialize (Xl q). unfold clash in *. now rewrite Vr. }
      destruct (L incs ctx before WC VC Eprev) as (mid & H). exists mid. tauto.
    - injection Eprev as <-. exists [], before. split; [exists m; split; [assumption|]; now rewrite D|]. split; [constructor|]. split; [assumption|]. split; [assumption|]. apply ext_refl. }
  apply bind_ok in E. destruct E as (p & Efm & E). apply bind_ok in E. destruct E as (c & Ec & E). apply bind_ok in E. destruct E as (own & Eo & E).
  destruct (context_view _ _ _ Wp Vp Ec) as (Wc & Pc & Vc).
  assert (OP := own_params_drop m _ Em PL). destruct (interpolate_wf is_word ft (ddrop m includes_key) c (proj1 OP) (from_value_nodots _ _ _ Efm) (proj1 Wc) p own Efm Eo) as [Wo _].
  pose proof (unify_correct prev own ns Wp Wo) as U. rewrite E in U. destruct U as (WR & PR & VR & _).
  exists mid, own. split; [eapply loads_file with (raw := YMap ym) (incs := incs) (own := ddrop m includes_key) (p := p) (ctx := c); eauto|]. split; [assumption|]. split; [assumption|]. split.
  - intros q. rewrite VR, merged_snoc, Vp. reflexivity.
  - exact (ext_trans _ _ _ Xp (unify_ext _ _ _ _ Wp Wo E)).
Qed.

(** C51: loading gives the merge of the context, the contributions of the included files in
    order (recursively) and finally the file's own parameters. *)
Theorem C51_load : forall fuel content ctx base ns R, wf_params ctx -> inner_load fuel content ctx base ns = Ok R ->
  exists cs, Loads [ctx] base content cs /\ wf_params R /\ params_prefix R = ns /\ forall q, view R q = merged cs q.
Proof using parse_wf.
  intros fuel content ctx base ns R W E. destruct (load_sound fuel content ctx base ns R [ctx] W (fun q => eq_sym (merged_one ctx q)) E) as (mid & c & H).
  exists (mid ++ [c]). tauto.
Qed.
(** Loading adds to the context: what was there stays a namespace or a parameter, and unifying the
    result with the context again (as the code does for includes) changes nothing and cannot fail. *)
Theorem C51_extends_context : forall fuel content ctx base ns R, wf_params ctx -> inner_load fuel content ctx base ns = Ok R ->
  (forall q, view ctx q = Some Namespace -> view R q = Some Namespace) /\
  (forall q v, view ctx q = Some (Leaf v) -> exists w, view R q = Some (Leaf w)) /\
  exists r, unify ctx R [] = Ok r /\ forall q, view r q = view R q.
Proof using parse_wf.
  intros fuel content ctx base ns R W E. destruct (load_sound fuel content ctx base ns R [ctx] W (fun q => eq_sym (merged_one ctx q)) E) as (mid & c & _ & WR & _ & _ & X).
  split; [intros q; now apply ext_ns|]. split; [intros q v V; destruct (ext_leaf _ _ _ _ X V) as (w & H & _); eauto|].
  destruct (unify_of_ext ctx R [] W WR X) as (r & Er & _ & V). eauto.
Qed.
(** Exact outcome for a file without includes. *)
Theorem C51_without_includes : forall fuel content ctx base ns raw m, wf_params ctx -> parse content = Ok raw -> to_pv raw = PMap m ->
  dfind m includes_key = None -> (exists y, raw = YMap y) -> string_keys raw ->
  forall R, inner_load (S fuel) content ctx base ns = Ok R <->
    exists p c own, from_mapping (PMap m) [] = Ok p /\ from_mapping (PMap (add_environ environ (as_dict (dictify ctx)))) [] = Ok c /\
      interpolate is_word ft p c = Ok own /\ (forall q, ~ clash ctx own q) /\ unify ctx own ns = Ok R.
Proof using parse_wf.
  intros fuel content ctx base ns raw m W Ep Em D Ey Sk R. assert (PL := to_pv_plain _ (parse_wf _ _ Ep) Sk). rewrite Em in PL.
  assert (ddrop m includes_key = m) as DM.
  { clear -D. induction m as [|[k v] m IH]; [reflexivity|]. simpl in *. destruct (str_eqb k includes_key); [discriminate|]. now rewrite IH. }
  cbn [Load.inner_load]. rewrite Ep. cbn [bind]. rewrite (proj2 (proj1 (C52_key_check raw)) (conj Ey Sk)). cbn [bind]. cbv zeta. rewrite Em. cbn [as_dict]. rewrite D, DM. cbn [bind].
  split.
  - intros E. apply wrap_ok in E. apply bind_ok in E. destruct E as (p & Efm & E). apply bind_ok in E. destruct E as (c & Ec & E). apply bind_ok in E. destruct E as (own & Eo & E).
    exists p, c, own. repeat (split; [assumption|]). split; [|assumption].
    destruct (context_view ctx [ctx] c W (fun q => eq_sym (merged_one ctx q)) Ec) as ([Wc Ic] & Pc & _).
    destruct (interpolate_wf is_word ft m c PL (from_value_nodots _ _ _ Efm) Wc p own Efm Eo) as [Wo _].
    pose proof (unify_correct ctx own ns W Wo) as U. rewrite E in U. destruct U as (_ & _ & _ & NC). exact NC.
  - intros (p & c & own & -> & -> & Eo & _ & Eu). cbn [bind]. rewrite Eo. cbn [bind]. now rewrite Eu.
Qed.
(** load_string cannot include relative files: IOError (ParameterError only as its cause).  The fuel is the recursion limit. *)
Theorem C51_relative_include_in_string : forall fuel content ctx ns raw m v incs i, parse content = Ok raw -> to_pv raw = PMap m ->
  dfind m includes_key = Some v -> includes_of v = Ok incs -> In i incs -> is_abs i = false ->
  fuel <> 0 -> load_string is_word ft read parse resolve parent environ fuel content ctx ns = Raise IOError.
Proof.
  intros fuel content ctx ns raw m v incs i Ep Em D Ei I Ab NF. unfold load_string. destruct fuel as [|f]; [congruence|]. clear NF. cbn [Load.inner_load]. rewrite Ep. cbn [bind].
  destruct (validate raw); cbn [bind]; [|reflexivity]. cbv zeta. rewrite Em. cbn [as_dict]. rewrite D, Ei. cbn [bind].
  match goal with |- wrap (bind (foldM ?g incs ctx) ?k) = _ => assert (exists e, foldM g incs ctx = Raise e) as (e & ->) end; [|reflexivity].
  clear Ei. revert ctx. induction incs as [|j incs IHi]; intros ctx; [destruct I|]. cbn [foldM]. destruct I as [->|I].
  - exists ParameterError. unfold locate. now rewrite Ab.
  - match goal with |- exists e, bind ?r _ = _ => destruct r; cbn [bind]; [|eexists; reflexivity] end. apply (IHi I).
Qed.

(** C49: what a reference in the file's own parameters resolves to: the file, else everything
    loaded before (context and includes), else the environment. *)
Theorem C49_precedence : is_word pct = false -> forall fuel content ctx base ns R raw own, wf_params ctx -> inner_load fuel content ctx base ns = Ok R ->
  parse content = Ok raw -> own_parameters raw own -> refs_passable is_word (PMap own) ->
  exists mid c, Loads [ctx] base content (mid ++ [c]) /\
    (forall q, view R q = merge1 (merged mid q) (view c q)) /\
    forall q n, ref_name is_word n -> view (PMap own) q = Some (Leaf (PStr (pct :: n ++ [pct]))) ->
      (forall v, view (PMap own) (py_split dot n) = Some (Leaf v) -> (forall s, v <> PStr s) -> truthy ft v = true -> view c q = Some (Leaf v)) /\
      (view (PMap own) (py_split dot n) = None ->
        (forall v, merged mid (py_split dot n) = Some (Leaf v) -> view c q = Some (Leaf v)) /\
        (forall v, dotless n -> merged mid [n] = None -> dfind environ n = Some v -> view c q = Some (Leaf (PStr v)))).
Proof using parse_wf.
  intros HP fuel content ctx base ns R raw own W E Ep Ow NTL.
  destruct (load_sound fuel content ctx base ns R [ctx] W (fun q => eq_sym (merged_one ctx q)) E) as (mid & c & L & WR & PR & V & X). exists mid, c. split; [assumption|].
  split; [intros q; now rewrite V, merged_snoc|]. inversion L as [before0 base0 content0 raw0 incs mid0 own0 p cx c0 Ep0 Em0 Sk IL Inc Ow0 Fm Wc Pc Vc Eo E1 E2 E3 E4]; subst.
  apply app_inj_tail in E4. destruct E4 as [-> ->]. rewrite Ep in Ep0. injection Ep0 as <-.
  assert (forall q, view (PMap own) q = view (PMap own0) q) as VO. { intros q. destruct Ow as [_ O1], Ow0 as [_ O2]. now rewrite O1, O2. }
  assert (loadable is_word own0 cx p) as LD.
  { destruct Ow0 as [PL0 _]. repeat (split; [assumption|]). intros q s n p0 k r v. rewrite <- !VO. apply NTL. }
  intros q n Rn Vq. rewrite VO in Vq. split.
  - intros v Vn NS T. rewrite VO in Vn. eapply (C50_file_value_used is_word ft HP); eauto.
  - intros Vn. rewrite VO in Vn. assert (forall v, is_leaf v -> view cx (py_split dot n) = Some (Leaf v) -> view c q = Some (Leaf v)) as K.
    { intros v Lv Hv. rewrite <- (app_nil_r q). rewrite (C50_context_value_used is_word ft HP own0 cx p c q n v LD Eo Rn Vq Vn).
      - destruct v; simpl in *; tauto || reflexivity.
      - apply stored_walk; [apply Wc|]. apply view_leaf_walk; [assumption|apply Wc]. }
    assert (forall v, view cx (py_split dot n) = Some (Leaf v) -> is_leaf v) as LL.
    { intros v Hv. destruct Wc as [Wc _]. rewrite (walk_view _ _ Wc) in Hv. destruct (walk cx (py_split dot n)) as [w|] eqn:Ew; [|discriminate]. destruct (is_params w) eqn:Q; [discriminate|]. injection Hv as <-.
      assert (wf w) as Ww. { revert Ew Wc. generalize (py_split dot n). clear. intros l. revert cx. induction l as [|k l IH]; intros cx H W; simpl in H; [injection H as <-; assumption|].
        destruct cx; try discriminate. destruct (dfind data k) eqn:E; [|discriminate]. eapply IH; [eassumption|]. eapply wf_find; eauto. }
      destruct w; simpl in *; tauto || discriminate. }
    split.
    + intros v Mv. assert (view cx (py_split dot n) = Some (Leaf v)) as Hv.
      { rewrite Vc. assert (NN := py_split_nonnil dot n). destruct (py_split dot n) as [|k r] eqn:Es; [congruence|]. unfold LoadSpec.fallback. destruct (merged mid [k]) as [x|] eqn:M1; [assumption|]. exfalso.
        assert (wf_params R) as _ by assumption. destruct r as [|k2 r]; [congruence|].
        assert (forall cs, merged cs (k :: k2 :: r) <> None -> merged cs [k] <> None) as MM.
        { clear. intros cs. induction cs as [|x cs IH] using rev_ind; [intros H; exact H|]. rewrite !merged_snoc. intros H. destruct (view x [k]) as [[|v]|] eqn:V.
          - simpl. congruence.
          - destruct v; cbn [merge1]; try discriminate. destruct (merged cs [k]); discriminate.
          - simpl. apply IH. intros K. apply H. rewrite K. assert (view x (k :: k2 :: r) = None) as ->; [|reflexivity].
            destruct (view x (k :: k2 :: r)) eqn:V2; [|reflexivity]. exfalso. enough (view x [k] = Some Namespace) by congruence. apply (view_app x [k] (k2 :: r)); [simpl in *; congruence|discriminate]. }
        apply (MM mid); congruence. }
      apply K; eauto.
    + intros v Dn M1 En. assert (view cx (py_split dot n) = Some (Leaf (PStr v))) as Hv.
      { rewrite Vc, (split_dotless _ Dn). unfold LoadSpec.fallback. rewrite M1, En. reflexivity. }
      apply K; eauto.
Qed.
(** Whatever goes wrong while loading a text is reported as IOError. *)
Lemma load_error fuel content ctx base ns e : fuel <> 0 -> inner_load fuel content ctx base ns = Raise e -> e = IOError.
Proof.
  destruct fuel as [|f]; [congruence|]. intros _. cbn [Load.inner_load]. unfold wrap. match goal with |- match ?r with _ => _ end = _ -> _ => destruct r; congruence end.
Qed.
Theorem C51_load_error : forall fuel content ctx base ns e, fuel <> 0 -> inner_load fuel content ctx base ns = Raise e -> e = IOError.
Proof. intros *. apply load_error. Qed.
(** Environment variables whose names contain a dot make every load fail. *)
Theorem C49_dotted_environment_breaks_loading : forall fuel content ctx base ns k v, wf_params ctx -> In (k, v) environ -> In dot k ->
  fuel <> 0 -> inner_load fuel content ctx base ns = Raise IOError.
Proof using parse_wf.
  intros fuel content ctx base ns k v W I Dk NF. destruct (inner_load fuel content ctx base ns) as [R|e] eqn:E; [|f_equal; exact (load_error _ _ _ _ _ _ NF E)]. exfalso.
  destruct (load_sound fuel content ctx base ns R [ctx] W (fun q => eq_sym (merged_one ctx q)) E) as (mid & c & L & _).
  assert (forall cs, Loads [ctx] base content cs -> False) as F; [|eauto]. clear -I Dk. intros cs L.
  inversion L as [before0 base0 content0 raw0 incs mid0 own0 p cx c0 Ep0 Em0 Sk IL Inc Ow0 Fm [Wc Ic] Pc Vc Eo E1 E2 E3 E4]; subst. clear L.
  assert (exists w, dfind environ k = Some w) as (w & Ew). { apply dfind_some_key. apply in_map_iff. now exists (k, v). }
  assert (view cx [k] <> None) as N. { rewrite Vc. unfold LoadSpec.fallback. destruct (merged mid0 [k]); [congruence|]. rewrite Ew. simpl. congruence. }
  destruct cx as [| | | | | | | | |pre d|]; try discriminate. simpl in N. destruct (dfind d k) as [x|] eqn:D; [|congruence]. apply wf_map in Wc. destruct Wc as (_ & Fd & _). rewrite Forall_forall in Fd.
  apply (Fd k); [|assumption]. apply dfind_some_key. eauto.
Qed.
(** C52 at the level of loading. *)
Theorem C52_load_rejects : forall fuel content ctx base ns raw, parse content = Ok raw -> ~ string_keys raw ->
  fuel <> 0 -> inner_load fuel content ctx base ns = Raise IOError.
Proof.
  intros fuel content ctx base ns raw Ep N NF. destruct fuel as [|f]; [congruence|]. cbn [Load.inner_load]. rewrite Ep. cbn [bind].
  destruct (validate raw) as [[]|] eqn:V; [|reflexivity]. apply C52_key_check in V. tauto.
Qed.
End P.
Print Assumptions C51_load.
Print Assumptions C49_precedence.

(** ** Concrete cases *)
(** /p/main.yaml includes inc/a.yaml and b.yaml; inc/a.yaml includes base.yaml (in its own
    directory). *)
Definition ex_texts : list (str * str) :=
  [(!!"/p/main.yaml", !!"main"); (!!"/p/inc/a.yaml", !!"a"); (!!"/p/inc/base.yaml", !!"base"); (!!"/p/b.yaml", !!"b");
   (!!"/p/bad.yaml", !!"bad"); (!!"/p/listed.yaml", !!"listed"); (!!"/p/scalar.yaml", !!"scalar")].
Notation ys s := (YLeaf (PStr s)).
Definition ex_yaml : list (str * yaml) :=
  [(!!"main", YMap [(KStr includes_key, YList [ys !!"inc/a.yaml"; ys !!"b.yaml"]);
                    (KStr !!"out", ys !!"%root%/%HOME%"); (KStr !!"x", YLeaf (PInt 3)); (KStr !!"sub", YMap [(KStr !!"y", ys !!"%x%")])]);
   (!!"a", YMap [(KStr includes_key, YList [ys !!"base.yaml"]); (KStr !!"root", ys !!"%top%/a"); (KStr !!"x", YLeaf (PInt 1))]);
   (!!"base", YMap [(KStr !!"top", ys !!"/data"); (KStr !!"x", YLeaf (PInt 0)); (KStr !!"sub", YMap [(KStr !!"z", YLeaf (PBool true))])]);
   (!!"b", YMap [(KStr !!"x", YLeaf (PInt 2)); (KStr !!"HOME", ys !!"home-of-b")]);
   (!!"bad", YMap [(KStr !!"k", YMap [(KOther 7, YLeaf PNone)])]);
   (!!"listed", YMap [(KStr !!"k", YList [YMap [(KOther 7, YLeaf PNone)]])]);
   (!!"scalar", ys !!"hello")].
Definition ex_read (f : str) : res str := match dfind ex_texts f with Some t => Ok t | None => Raise FileNotFoundError end.
Definition ex_parse (t : str) : res yaml := match dfind ex_yaml t with Some t => Ok t | None => Raise AnyError end.
Definition ex_resolve (base f : str) : res str := Ok (base ++ f).
Definition ex_parent (f : str) : str := (* up to the last slash *)
  rev (snd (fold_right (fun c '(seen, acc) => if seen : bool then (true, acc ++ [c]) else if (c =? 47)%N then (true, acc ++ [c]) else (false, acc)) (false, []) f)).
Definition ex_load env f c ic := load word_ascii ft1 ex_read ex_parse ex_resolve ex_parent env 10 f c ic [].
Definition shown (r : res pv) : res pv := let* p := r in Ok (dictify p).
Example C51_witness : shown (ex_load [(!!"HOME", !!"/home/u")] !!"/p/main.yaml" None None) = Ok (PMap
  [(!!"top", PStr !!"/data"); (!!"x", PInt 3); (!!"sub", PMap [(!!"z", PBool true); (!!"y", PInt 3)]);
   (!!"root", PStr !!"/data/a"); (!!"HOME", PStr !!"home-of-b"); (!!"out", PStr !!"/data/a/home-of-b")]).
Proof. vm_compute. reflexivity. Qed.
Ltac yaml_wf_tac :=
  lazymatch goal with
  | |- yaml_wf (YLeaf _) => constructor; exact Logic.I
  | |- yaml_wf (YList _) => constructor
  | |- yaml_wf (YMap _) =>
      let k := fresh "k" in let v := fresh "v" in let I := fresh "I" in
      constructor; [repeat constructor; simpl; intuition discriminate
                   |intros k v I; simpl in I; repeat (destruct I as [I|I]; [injection I as _ <-; yaml_wf_tac|])]
  end.
Example ex_parse_wf : forall t y, ex_parse t = Ok y -> yaml_wf y.
Proof.
  intros t y. unfold ex_parse. destruct (dfind ex_yaml t) as [z|] eqn:E; [|discriminate]. intros H. injection H as <-. apply dfind_in in E. simpl in E.
  repeat (destruct E as [E|E]; [injection E as _ <-; yaml_wf_tac|]). all: contradiction.
Qed.
(** Environment variables are the last resort, and only if asked for. *)
Example C49_witness_environment : shown (load word_ascii ft1 ex_read ex_parse ex_resolve ex_parent [(!!"top", !!"/env")] 10 !!"/p/inc/a.yaml" None None []) =
  Ok (PMap [(!!"top", PStr !!"/data"); (!!"x", PInt 1); (!!"sub", PMap [(!!"z", PBool true)]); (!!"root", PStr !!"/data/a")]).
Proof. vm_compute. reflexivity. Qed.
Example C52_witness : exists m, ex_parse !!"bad" = Ok (YMap m) /\ ~ string_keys (YMap m) /\ ex_load [] !!"/p/bad.yaml" None None = Raise IOError.
Proof.
  eexists. split; [reflexivity|]. split; [|vm_compute; reflexivity]. intros H. inversion H as [| |? S]; subst. destruct (S _ _ (or_introl eq_refl)) as [_ K].
  inversion K as [| |? S2]; subst. destruct (S2 _ _ (or_introl eq_refl)) as [(s & E) _]. discriminate.
Qed.
Example C51_scalar_file_witness : ex_load [] !!"/p/scalar.yaml" None None = Raise IOError.
Proof. vm_compute. reflexivity. Qed.
(** C52, documented claim ("all keys ... at any depth must be strings"), refuted: dicts inside
    lists are not checked. *)
Theorem C52_any_depth_refuted : exists y R, ex_parse !!"listed" = Ok y /\
  y = YMap [(KStr !!"k", YList [YMap [(KOther 7, YLeaf PNone)]])] /\ ex_load [] !!"/p/listed.yaml" None None = Ok R.
Proof. do 2 eexists. split; [reflexivity|]. split; [reflexivity|]. vm_compute. reflexivity. Qed.
(** C51: giving both names of the context argument fails, and (unlike all other failures) the
    failure to read the top-level file is not turned into an IOError by the loader. *)
Theorem C51_two_contexts : forall is_word ft read parse resolve parent environ fuel f c ic ns,
  load is_word ft read parse resolve parent environ fuel f (Some c) (Some ic) ns = Raise ParameterError.
Proof. reflexivity. Qed.
Theorem C51_same_context : forall is_word ft read parse resolve parent environ fuel f c ns,
  load is_word ft read parse resolve parent environ fuel f (Some c) None ns =
  load is_word ft read parse resolve parent environ fuel f None (Some c) ns.
Proof. reflexivity. Qed.
Theorem C51_unreadable_file : forall is_word ft read parse resolve parent environ fuel f ic ns e, read f = Raise e ->
  load is_word ft read parse resolve parent environ fuel f None ic ns = Raise e.
Proof. intros is_word ft read parse resolve parent environ fuel f ic ns e H. unfold load. destruct ic; cbn [bind]; [|rewrite (proj1 (conj eq_refl Logic.I) : empty_params [] = Ok (PParams [] []))]; cbn [bind]; now rewrite H. Qed.
(** A file loaded by name is loaded relative to its own directory in the given context. *)
Theorem C51_load_file : forall is_word ft read parse resolve parent environ fuel f ic ns text, read f = Ok text ->
  load is_word ft read parse resolve parent environ fuel f None ic ns =
  inner_load is_word ft read parse resolve parent environ fuel text (match ic with Some c => c | None => PParams [] [] end) (Some (parent f)) ns.
Proof. intros is_word ft read parse resolve parent environ fuel f ic ns text H. unfold load. destruct ic; cbn [bind]; [|rewrite (proj1 (conj eq_refl Logic.I) : empty_params [] = Ok (PParams [] []))]; cbn [bind]; now rewrite H. Qed.
Print Assumptions C52_any_depth_refuted.
Print Assumptions C51_load_file.
