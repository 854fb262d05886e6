(** * Property C53: evaluate and object_from_parameters *)
From Verif Require Import Prelude PyStr Params ParamsSpec ParamsProofs ParamsGet ParamsEval.

(** [n] is the dotted name of a package leading to [m], or [m] itself. *)
Definition package_of (m n : str) : Prop := exists a b, a <> [] /\ py_split dot m = a ++ b /\ n = dotted a.
(** [n] is the dotted name of a package properly containing what [m] names. *)
Definition proper_package_of (m n : str) : Prop := exists a b, a <> [] /\ b <> [] /\ py_split dot m = a ++ b /\ n = dotted a.
(** ** Imports *)
Lemma dotted_prefixes_in parts n : In n (dotted_prefixes parts) <-> exists a b, a <> [] /\ parts = a ++ b /\ n = dotted a.
Proof.
  unfold dotted_prefixes. rewrite in_map_iff. split.
  - intros (i & <- & I). apply in_seq in I. exists (firstn (S i) parts), (skipn (S i) parts). split; [|split; [symmetry; apply firstn_skipn|reflexivity]].
    destruct parts; [simpl in I; lia|discriminate].
  - intros (a & b & N & -> & ->). destruct a as [|x a]; [congruence|]. exists (length a). split.
    + unfold dotted. f_equal. rewrite firstn_app. replace (S (length a) - length (x :: a))%nat with 0%nat by (simpl; lia). rewrite firstn_O, app_nil_r. apply (firstn_all (x :: a)).
    + apply in_seq. rewrite app_length. simpl. lia.
Qed.
Lemma package_of_in m n : In n (dotted_prefixes (py_split dot m)) <-> package_of m n.
Proof. apply dotted_prefixes_in. Qed.
Lemma removelast_app_last {A} (l : list A) : l <> [] -> exists x, l = removelast l ++ [x].
Proof. intros H. destruct (exists_last H) as (l' & x & ->). exists x. now rewrite removelast_last. Qed.
(** Importing the package prefixes of a name, and their package prefixes. *)
Lemma proper_package_in s n : (exists m, In m (context_modules_from_prefix s) /\ package_of m n) <-> proper_package_of s n.
Proof.
  destruct (removelast_app_last (py_split dot s) (py_split_nonnil _ _)) as (x & E).
  assert (forall p, In p (py_split dot s) -> ~ In dot p) as ND by (intros p; apply py_split_parts).
  unfold context_modules_from_prefix. split.
  - intros (m & I & a & b & N & Es & ->). apply dotted_prefixes_in in I. destruct I as (a0 & b0 & N0 & E0 & ->).
    unfold dotted in Es. rewrite py_join_split in Es; [|assumption|intros p I; apply ND; rewrite E, E0; apply in_or_app; left; apply in_or_app; auto]. subst a0.
    exists a, (b ++ b0 ++ [x]). split; [assumption|]. split; [destruct b, b0; discriminate|]. split; [|reflexivity]. rewrite E, E0. now rewrite <- !app_assoc.
  - intros (a & b & Na & Nb & Es & ->). exists (dotted a). destruct (removelast_app_last b Nb) as (y & Eb). assert (removelast (py_split dot s) = a ++ removelast b) as Er.
    { rewrite Es, Eb, app_assoc, !removelast_last. reflexivity. }
    split; [apply dotted_prefixes_in; exists a, (removelast b); auto|]. exists a, []. split; [assumption|]. rewrite app_nil_r. split; [|reflexivity].
    apply py_join_split; [assumption|]. intros p I. apply ND. rewrite Es. apply in_or_app; auto.
Qed.

Section P.
Set Default Proof Using "Type".
Variable obj : Type.
Variable of_str : str -> obj.
Variable import_module : str -> res obj.
Notation context := (context obj).
Variable eval : obj -> context -> res obj.
Variable locals_of : pv -> str -> context.
Variable globals_ctx : context.
Variable is_class : obj -> bool.
Variable from_parameters : obj -> option (pv -> res obj).
Variable construct : obj -> res obj.
Variable callable : obj -> bool.
Variable call : obj -> pv -> res obj.
Variable none_obj : obj.
(** eval looks only at what the names are bound to. *)
Hypothesis eval_ext : forall code c c', (forall n, dfind c n = dfind c' n) -> eval code c = eval code c'.
Notation evaluate := (evaluate obj of_str import_module eval locals_of).
Notation optional_evaluate := (optional_evaluate obj of_str import_module eval locals_of).
Notation apply_factory := (apply_factory obj is_class from_parameters construct callable call).
Notation object_from_parameters := (object_from_parameters obj of_str import_module eval locals_of globals_ctx is_class from_parameters construct callable call none_obj).

(** ** Specification *)
(** [c'] is [c] with the needed modules imported under their names, unless already bound. *)
Definition imported (needed : str -> Prop) (c c' : context) : Prop := forall n,
  match dfind c n with
  | Some o => dfind c' n = Some o
  | None => (needed n -> exists o, import_module n = Ok o /\ dfind c' n = Some o) /\ (~ needed n -> dfind c' n = None)
  end.
Definition Runs (code : obj) (needed : str -> Prop) (c : context) (o : obj) : Prop :=
  exists c', imported needed c c' /\ eval code c' = Ok o.
Definition given_or (c : option context) (d : context) : context :=
  match c with None => d | Some c => match c with [] => d | _ => c end end.
Definition special (m : list (str * obj)) (s : str) : obj := match dfind m s with Some o => o | None => of_str s end.
(** The import list of a namespace: absent or null, or a list of strings. *)
Definition Imports (ns : pv) (mods : list str) : Prop :=
  ((Absent ns !!"import" \/ Stored ns !!"import" PNone) /\ mods = []) \/ Stored ns !!"import" (PList (map PStr mods)).
Definition Missing (p : pv) (name : str) : Prop := Absent p name \/ Stored p name PNone.
Definition present_ (p : pv) (name : str) : Prop := exists v, Stored p name v /\ v <> PNone.
(** The value of [name] read as code: a namespace holding the code and its imports, or a string. *)
Inductive Evaluates (p : pv) (name : str) (ctx : option context) (value_param : str) (sp : list (str * obj)) : obj -> Prop :=
| ev_namespace ns code mods o : Stored p name ns -> is_params ns = true -> Stored ns value_param (PStr code) -> Imports ns mods ->
    Runs (special sp code) (fun n => exists m, In m mods /\ package_of m n) (given_or ctx (locals_of p name)) o ->
    Evaluates p name ctx value_param sp o
| ev_string code o : Stored p name (PStr code) ->
    Runs (special sp code) (proper_package_of code) (given_or ctx (locals_of p name)) o ->
    Evaluates p name ctx value_param sp o.
(** Using a factory. *)
Inductive Applied (f : obj) (arg : pv) : obj -> Prop :=
| ap_class g o : is_class f = true -> from_parameters f = Some g -> g arg = Ok o -> Applied f arg o
| ap_constructor o : is_class f = true -> from_parameters f = None -> construct f = Ok o -> Applied f arg o
| ap_function o : is_class f = false -> callable f = true -> call f arg = Ok o -> Applied f arg o.
Inductive Builds (p : pv) (name : str) (ctx : option context) (value_param factory_param : str)
    (sv sf : list (str * obj)) (dv df : option obj) : obj -> Prop :=
| b_value ns o : Stored p name ns -> is_params ns = true -> present_ ns value_param -> Missing ns factory_param ->
    Evaluates p name ctx value_param sv o -> Builds p name ctx value_param factory_param sv sf dv df o
| b_factory ns f o : Stored p name ns -> is_params ns = true -> present_ ns factory_param -> Missing ns value_param ->
    Evaluates p name ctx factory_param sf f -> Applied f ns o -> Builds p name ctx value_param factory_param sv sf dv df o
| b_special_value s o : Stored p name (PStr s) -> dfind sv s = Some o -> Builds p name ctx value_param factory_param sv sf dv df o
| b_special_factory s f o : Stored p name (PStr s) -> dfind sv s = None -> dfind sf s = Some f ->
    Applied (match df with Some d => d | None => none_obj end) (PParams (map (fun c => [c]) name) []) o ->
    Builds p name ctx value_param factory_param sv sf dv df o
| b_string s o : Stored p name (PStr s) -> dfind sv s = None -> dfind sf s = None ->
    Runs (of_str s) (proper_package_of s) (given_or ctx globals_ctx) o -> Builds p name ctx value_param factory_param sv sf dv df o
| b_default o : Missing p name -> dv = Some o -> Builds p name ctx value_param factory_param sv sf dv df o
| b_default_factory f o : Missing p name -> dv = None -> df = Some f ->
    Applied f (PParams (map (fun c => [c]) name) []) o -> Builds p name ctx value_param factory_param sv sf dv df o.

Lemma foldM_app_ {A S} (f : S -> A -> res S) l1 : forall l2 s, foldM f (l1 ++ l2) s = let* s' := foldM f l1 s in foldM f l2 s'.
Proof. induction l1 as [|x l1 IH]; intros l2 s; simpl; [reflexivity|]. destruct (f s x); simpl; [apply IH|reflexivity]. Qed.
Notation import_one := (import_one obj import_module).
Notation import_all := (import_all obj import_module).
Lemma import_names names : forall c, match foldM import_one names c with
  | Ok c' => imported (fun n => In n names) c c'
  | Raise _ => exists n e, In n names /\ dfind c n = None /\ import_module n = Raise e
  end.
Proof.
  induction names as [|x names IH]; intros c; cbn [foldM].
  - intros n. destruct (dfind c n) eqn:Dn; [reflexivity|]. split; [intros []|]. intros _. reflexivity.
  - unfold ParamsEval.import_one at 1. destruct (dfind c x) as [o|] eqn:D; cbn [bind].
    + specialize (IH c). destruct (foldM import_one names c) as [c'|e].
      * intros n. specialize (IH n). revert IH. destruct (dfind c n) eqn:Dn; intros IH; [assumption|]. destruct IH as [I1 I2]. split.
        -- intros [->|I]; [congruence|]. now apply I1.
        -- intros N. apply I2. intros I. apply N. now right.
      * destruct IH as (n & e' & I & Dn & En). exists n, e'. split; [now right|]. auto.
    + destruct (import_module x) as [m|e] eqn:Em; cbn [bind]; [|exists x, e; split; [now left|]; auto]. specialize (IH (dput c x m)). destruct (foldM import_one names (dput c x m)) as [c'|e].
      * intros n. specialize (IH n). rewrite dfind_dput in IH. destruct (str_eqb x n) eqn:Ex.
        -- apply str_eqb_eq in Ex. subst n. rewrite D. split; [eauto|]. intros N. destruct N. now left.
        -- apply str_eqb_neq in Ex. revert IH. destruct (dfind c n) eqn:Dn; intros IH; [assumption|]. destruct IH as [I1 I2]. split.
           ++ intros [->|I]; [congruence|]. now apply I1.
           ++ intros N. apply I2. intros I. apply N. now right.
      * destruct IH as (n & e' & I & Dn & En). rewrite dfind_dput in Dn. destruct (str_eqb x n) eqn:Ex; [discriminate|]. exists n, e'. split; [now right|]. auto.
Qed.
Lemma import_all_strs mods : forall c, import_all c (map PStr mods) = foldM import_one (flat_map (fun m => dotted_prefixes (py_split dot m)) mods) c.
Proof.
  unfold ParamsEval.import_all. induction mods as [|m mods IH]; intros c; [reflexivity|]. cbn [map foldM flat_map]. rewrite foldM_app_. destruct (foldM import_one _ c); cbn [bind]; [apply IH|reflexivity].
Qed.
Lemma all_strs l : (exists mods, l = map PStr mods) \/ exists v, In v l /\ is_str v = false.
Proof.
  induction l as [|v l IH]; [left; exists []; reflexivity|]. destruct (is_str v) eqn:T; [|right; exists v; simpl; auto]. destruct v; try discriminate.
  destruct IH as [(mods & ->)|(v & I & F)]; [left; exists (s :: mods); reflexivity|right; exists v; simpl; auto].
Qed.
Lemma import_all_bad l : (exists v, In v l /\ is_str v = false) -> forall c c', import_all c l <> Ok c'.
Proof.
  unfold ParamsEval.import_all. induction l as [|v l IH]; intros (w & I & F) c c'; [destruct I|]. cbn [foldM]. destruct I as [->|I]; [destruct w; discriminate|].
  match goal with |- bind ?r _ <> _ => destruct r; cbn [bind]; [|discriminate] end. apply IH. eauto.
Qed.
Lemma imported_ext needed needed' c c' : (forall n, needed n <-> needed' n) -> imported needed c c' -> imported needed' c c'.
Proof. intros H I n. specialize (I n). destruct (dfind c n); [assumption|]. rewrite (H n) in I. assumption. Qed.
Lemma imported_unique needed c c1 c2 : (forall n, needed n \/ ~ needed n) -> imported needed c c1 -> imported needed c c2 -> forall n, dfind c1 n = dfind c2 n.
Proof.
  intros Dc I1 I2 n. specialize (I1 n). specialize (I2 n). destruct (dfind c n); [congruence|]. destruct I1 as [A1 B1], I2 as [A2 B2]. destruct (Dc n) as [Y|Y].
  - destruct (A1 Y) as (o1 & E1 & F1), (A2 Y) as (o2 & E2 & F2). congruence.
  - rewrite B1, B2; auto.
Qed.
Notation eval_in := (eval_in_context_of_modules obj import_module eval).
Lemma eval_in_spec code c mods needed ty : (forall n, needed n <-> exists m, In m mods /\ package_of m n) ->
  forall o, eval_in code c (map PStr mods) ty = Ok o <-> Runs code needed c o /\ ty o = true.
Proof using eval_ext.
  intros H o. unfold eval_in_context_of_modules. rewrite import_all_strs. set (names := flat_map _ mods).
  assert (forall n, In n names <-> needed n) as Hn.
  { intros n. rewrite H. subst names. rewrite in_flat_map. split; intros (m & I & J); exists m; split; auto; now apply package_of_in. }
  pose proof (import_names names c) as K. destruct (foldM import_one names c) as [c'|e]; cbn [bind].
  - apply (imported_ext _ needed) in K; [|assumption]. split.
    + destruct (eval code c') as [r|] eqn:E; cbn [bind]; [|discriminate]. destruct (ty r) eqn:T; [|discriminate]. intros X. injection X as <-. split; [exists c'; auto|assumption].
    + intros [(c2 & I2 & E) T]. assert (eval code c' = eval code c2) as Ee.
      { apply eval_ext. apply (imported_unique needed c); auto. intros n. rewrite <- Hn. destruct (in_dec (list_eq_dec N.eq_dec) n names); auto. }
      rewrite Ee, E. cbn [bind]. now rewrite T.
  - split; [discriminate|]. intros [(c2 & I2 & E) T]. exfalso. destruct K as (n & e' & I & D & Em). specialize (I2 n). rewrite D in I2. destruct I2 as [I2 _].
    destruct (I2 (proj1 (Hn n) I)) as (o' & Eo & _). congruence.
Qed.

(** ** evaluate *)
Lemma stored_wf p name v : wf p -> Stored p name v -> wf v.
Proof. unfold Stored. intros W R. revert W. induction R as [|pre d k x q v I R IH]; intros W; [assumption|]. apply IH. apply wf_map in W. destruct W as (_ & _ & F). rewrite Forall_forall in F. exact (F _ I). Qed.
Lemma string_spec p name v : wf p -> (string_ p name None PNone = Ok v <-> Stored p name v /\ is_str v = true).
Proof.
  intros W. unfold string_. destruct (get_spec p name is_str PNone W) as (G1 & G2 & G3). split.
  - intros E. apply bind_ok in E. destruct E as (w & Ew & E). injection E as <-. destruct (stored_or_absent p name W) as [(x & Sx)|A]; [|rewrite G3 in Ew by (now apply no_candidate); discriminate].
    destruct (is_str x) eqn:T; [|destruct (G2 x (cand_stored _ _ _ _ Sx) T) as (e & Ge & _); congruence]. rewrite (G1 x (cand_stored _ _ _ _ Sx) T) in Ew. injection Ew as <-. auto.
  - intros [Sx T]. rewrite (G1 v (cand_stored _ _ _ _ Sx) T). reflexivity.
Qed.
Lemma imports_spec ns v : wf ns -> (optional_arbitrary_list ns import_key None = Ok v <->
  (Missing ns !!"import" /\ v = PNone) \/ (Stored ns !!"import" v /\ is_list v = true)).
Proof.
  intros W. unfold optional_arbitrary_list. destruct (get_optional_spec ns import_key is_list PNone W) as (G1 & G2 & G3). change import_key with !!"import" in *. split.
  - intros E. destruct (stored_or_absent ns !!"import" W) as [(x & Sx)|A]; [|rewrite G3 in E by auto; injection E as <-; left; split; [left|]; auto].
    destruct (is_none x) eqn:N; [apply is_none_eq in N; subst; rewrite G3 in E by auto; injection E as <-; left; split; [right|]; auto|]. apply is_none_neq in N.
    destruct (is_list x) eqn:T; [|destruct (G2 x Sx N T) as (e & Ge & _); congruence]. rewrite (G1 x Sx N T) in E. injection E as <-. auto.
  - intros [[M ->]|[Sx T]]; [now apply G3|]. apply G1; auto. intros ->. discriminate.
Qed.
Lemma or_else_given c d : or_else obj c d = given_or c d.
Proof. destruct c as [[|]|]; reflexivity. Qed.
Lemma optional_namespace_spec p name : wf p -> exists ns, optional_namespace p name = Ok ns /\
  (is_params ns = true <-> exists v, Stored p name v /\ is_params v = true) /\ (is_params ns = true -> Stored p name ns).
Proof.
  intros W. unfold optional_namespace. destruct (get_optional_spec p name is_object PNone W) as (G1 & _ & G3).
  destruct (stored_or_absent p name W) as [(x & Sx)|A].
  - destruct (is_none x) eqn:N.
    + apply is_none_eq in N. subst. rewrite G3 by auto. cbn [bind is_params]. eexists. split; [reflexivity|]. split; [|discriminate]. split; [discriminate|]. intros (v & Sv & T).
      rewrite (stored_unique _ _ _ _ W Sv Sx) in T. discriminate.
    + apply is_none_neq in N. rewrite (G1 x Sx N eq_refl). cbn [bind]. destruct (is_params x) eqn:T.
      * exists x. split; [reflexivity|]. split; [|auto]. split; [eauto|]. intros (v & Sv & T'). now rewrite (stored_unique _ _ _ _ W Sv Sx) in T'.
      * eexists. split; [reflexivity|]. split; [|discriminate]. split; [discriminate|]. intros (v & Sv & T'). rewrite (stored_unique _ _ _ _ W Sv Sx) in T'. congruence.
  - rewrite G3 by auto. cbn [bind is_params]. eexists. split; [reflexivity|]. split; [|discriminate]. split; [discriminate|]. intros (v & Sv & _). destruct (A _ Sv).
Qed.
Lemma wrap_param_ok {A} (r : res A) a : wrap_param r = Ok a <-> r = Ok a.
Proof. destruct r; simpl; split; congruence. Qed.
(** C53: evaluate gives exactly what running the code gives, in a context with the required
    modules imported, if that has the expected type; the default (whatever its type) when the parameter is missing. *)
Theorem C53_evaluate : forall p name ty ctx value_param sp default, wf_params p ->
  (forall o, evaluate p name ty ctx value_param sp default = Ok o <->
     (Evaluates p name ctx value_param sp o /\ ty o = true) \/ (Missing p name /\ default = Some o)) /\
  (forall e, evaluate p name ty ctx value_param sp default = Raise e -> e = ParameterError).
Proof using eval_ext.
  intros p name ty ctx vp sp df [W _]. unfold ParamsEval.evaluate. destruct (optional_namespace_spec p name W) as (ns & -> & Hn & Hs). cbn [bind]. split.
  - intros o. rewrite wrap_param_ok. destruct (is_params ns) eqn:T.
    + specialize (Hs eq_refl). assert (Wn := stored_wf _ _ _ W Hs). split.
      * intros E. left. apply bind_ok in E. destruct E as (code & Ec & E). apply bind_ok in E. destruct E as (mods & Em & E). apply (string_spec _ _ _ Wn) in Ec. destruct Ec as [Sc Tc]. destruct code; try discriminate.
        apply (imports_spec _ _ Wn) in Em. assert (exists l, list_of mods = map PStr l /\ Imports ns l) as (l & El & Il).
        { destruct Em as [[M ->]|[Sm Tm]]; [exists []; split; [reflexivity|left; auto]|]. destruct mods; try discriminate. simpl in E |- *. destruct (all_strs l) as [(mods & ->)|B].
          - exists mods. split; [reflexivity|]. right. assumption.
          - exfalso. unfold eval_in_context_of_modules in E. apply bind_ok in E. destruct E as (c' & E & _). exact (import_all_bad _ B _ _ E). }
        rewrite El in E. rewrite (eval_in_spec _ _ _ (fun n => exists m, In m l /\ package_of m n)) in E by reflexivity. destruct E as [R T']. split; [|assumption]. rewrite or_else_given in R. eapply ev_namespace; eauto.
      * intros [[E T']|[M _]].
        -- inversion E as [ns' code mods o' S1 T1 S2 Im R|code o' S1 R]; subst.
           ++ assert (ns' = ns) as -> by (exact (stored_unique _ _ _ _ W S1 Hs)). rewrite (proj2 (string_spec ns vp (PStr code) Wn)) by auto. cbn [bind].
              assert (exists v, optional_arbitrary_list ns import_key None = Ok v /\ list_of v = map PStr mods) as (v & Ev & El).
              { destruct Im as [[M ->]|Sm]; [exists PNone|exists (PList (map PStr mods))]; (split; [|reflexivity]); apply (imports_spec _ _ Wn); [left|right]; auto. }
              rewrite Ev. cbn [bind]. rewrite El, or_else_given. apply (eval_in_spec _ _ _ (fun n => exists m, In m mods /\ package_of m n)); [reflexivity|]. auto.
           ++ rewrite <- (stored_unique _ _ _ _ W S1 Hs) in T. discriminate.
        -- exfalso. destruct M as [A|Sn]; [exact (A _ Hs)|]. rewrite (stored_unique _ _ _ _ W Hs Sn) in T. discriminate.
    + assert (forall v, Stored p name v -> is_params v = false) as NP. { intros v Sv. destruct (is_params v) eqn:Tv; [|reflexivity]. assert (false = true) by (apply Hn; eauto). discriminate. }
      destruct (contains p name) eqn:C.
      * split.
        -- intros E. left. apply bind_ok in E. destruct E as (code & Ec & E). apply (string_spec _ _ _ W) in Ec. destruct Ec as [Sc Tc]. destruct code; try discriminate.
           rewrite (eval_in_spec _ _ _ (proper_package_of s)) in E by (intros n; symmetry; apply proper_package_in). destruct E as [R T']. split; [|assumption]. rewrite or_else_given in R. eapply ev_string; eauto.
        -- intros [[E T']|[M _]].
           ++ inversion E as [ns' code mods o' S1 T1 S2 Im R|code o' S1 R]; subst; [rewrite (NP _ S1) in T1; discriminate|]. rewrite (proj2 (string_spec p name (PStr code) W)) by auto. cbn [bind str_of].
              rewrite or_else_given. apply (eval_in_spec _ _ _ (proper_package_of code)); [intros n; symmetry; apply proper_package_in|]. auto.
           ++ apply (contains_false _ _ W) in M. congruence.
      * assert (M := proj1 (contains_false _ _ W) C). split.
        -- intros E. right. destruct df; [|discriminate]. injection E as ->. auto.
        -- intros [[E _]|[_ ->]]; [|reflexivity]. exfalso. inversion E as [ns' code mods o' S1 T1 S2 Im R|code o' S1 R]; subst; [rewrite (NP _ S1) in T1; discriminate|].
           destruct M as [A|Sn]; [exact (A _ S1)|]. discriminate (stored_unique _ _ _ _ W S1 Sn).
  - intros e. match goal with |- wrap_param ?r = _ -> _ => destruct r end; simpl; congruence.
Qed.
Theorem C53_optional_evaluate : forall p name ty value_param sp, wf_params p ->
  (Missing p name -> optional_evaluate p name ty value_param sp = Ok None) /\
  (~ Missing p name -> optional_evaluate p name ty value_param sp = let* o := evaluate p name ty None value_param sp None in Ok (Some o)).
Proof.
  intros p name ty vp sp [W _]. unfold ParamsEval.optional_evaluate. split; intros M.
  - apply (contains_false _ _ W) in M. now rewrite M.
  - destruct (contains p name) eqn:C; [reflexivity|]. destruct M. now apply (contains_false _ _ W).
Qed.

(** ** object_from_parameters *)
Lemma apply_factory_spec f arg o : apply_factory f arg = Ok o <-> Applied f arg o.
Proof.
  unfold ParamsEval.apply_factory. split.
  - destruct (is_class f) eqn:C; [destruct (from_parameters f) eqn:F|destruct (callable f) eqn:L]; intros E; try discriminate; [eapply ap_class|eapply ap_constructor|eapply ap_function]; eauto.
  - intros [g o' C F E|o' C F E|o' C L E]; rewrite C; [now rewrite F|now rewrite F|now rewrite L].
Qed.
Lemma validate_ok (ty : obj -> bool) (r : res obj) o : (let* x := r in if ty x then Ok x else Raise ParameterError) = Ok o <-> r = Ok o /\ ty o = true.
Proof.
  destruct r as [x|e]; cbn [bind]; [|split; [discriminate|intros [H _]; discriminate]]. destruct (ty x) eqn:T; split; try (intros H; injection H as <-; auto); try discriminate.
  - intros [H _]. congruence.
  - intros [H T']. injection H as ->. congruence.
Qed.
Lemma present_contains p name : wf p -> (contains p name = true <-> present_ p name).
Proof. intros W. now apply contains_spec. Qed.
Lemma exactly_one ns a b : wf ns -> (assert_exactly_one_present ns [a; b] = Ok tt <->
  (present_ ns a /\ Missing ns b) \/ (present_ ns b /\ Missing ns a)).
Proof.
  intros W. unfold assert_exactly_one_present. cbn [filter]. pose proof (present_contains ns a W) as Ha. pose proof (present_contains ns b W) as Hb.
  pose proof (contains_false ns a W) as Fa. pose proof (contains_false ns b W) as Fb. unfold Missing. clear -Ha Hb Fa Fb.
  destruct (contains ns a), (contains ns b); split; intros H; try discriminate; try reflexivity; intuition discriminate.
Qed.
Lemma evaluates_object p name ctx vp sp o : wf_params p -> (forall v, Stored p name v -> is_params v = true) -> present_ p name ->
  evaluate p name (object_type obj) ctx vp sp None = Ok o <-> Evaluates p name ctx vp sp o.
Proof using eval_ext.
  intros W NP Pr. rewrite (proj1 (C53_evaluate p name (object_type obj) ctx vp sp None W) o). unfold object_type. split; [intros [[E _]|[_ E]]; [exact E|discriminate]|auto].
Qed.
(** C53: the complete decision table of object_from_parameters. *)
Theorem C53_object_from_parameters : forall p name ty ctx value_param factory_param sv sf dv df, wf_params p ->
  forall o, object_from_parameters p name ty ctx value_param factory_param sv sf dv df = Ok o <->
    Builds p name ctx value_param factory_param sv sf dv df o /\ ty o = true.
Proof using eval_ext.
  intros p name ty ctx vp fp sv sf dv df WP o. destruct WP as [W IP]. assert (WP : wf_params p) by (split; assumption). unfold ParamsEval.object_from_parameters.
  assert (Em : empty_params (extend_prefix (params_prefix p) name) = Ok (PParams (map (fun c => [c]) name) [])) by reflexivity.
  destruct (contains p name) eqn:C.
  - apply (contains_spec _ _ W) in C. destruct C as (v & Sv & Nv).
    assert (forall w, Stored p name w -> w = v) as U by (intros w Sw; eapply stored_unique; eauto).
    assert (~ Missing p name) as NM. { intros [A|Sn]; [exact (A _ Sv)|]. apply Nv. symmetry. now apply U. }
    assert (has_namespace p name = is_params v) as HN. { unfold has_namespace. destruct (private_get_spec p name true PNone W) as [G _]. now rewrite (G v (cand_stored _ _ _ _ Sv)). }
    rewrite HN. destruct (is_params v) eqn:T.
    + assert (namespace p name = Ok v) as ->. { unfold namespace. destruct (get_spec p name is_params PNone W) as (G & _ & _). apply G; [now constructor|assumption]. }
      cbn [bind]. assert (Wv := stored_wf _ _ _ W Sv). pose proof (exactly_one v vp fp Wv) as X1.
      assert (forall w, Stored p name w -> is_params w = true) as NP by (intros w Sw; now rewrite (U w Sw)).
      assert (present_ p name) as Pr by (exists v; auto).
      destruct (assert_exactly_one_present v [vp; fp]) as [[]|] eqn:EX.
      * cbn [bind]. destruct (contains v vp) eqn:Cv.
        -- rewrite validate_ok, (evaluates_object p name ctx vp sv o WP NP Pr). apply (present_contains _ _ Wv) in Cv. split.
           ++ intros [E To]. split; [|assumption]. destruct (proj1 X1 eq_refl) as [[P1 M1]|[P1 M1]]; [eapply b_value; eauto|]. exfalso. apply (present_contains _ _ Wv) in Cv. apply (contains_false _ _ Wv) in M1. congruence.
           ++ intros [B To]. split; [|assumption].
              inversion B as [ns o' S1 T1 P1 M1 E|ns f o' S1 T1 P1 M1 E A|s o' S1|s f o' S1|s o' S1|o' M|f o' M]; subst; try tauto; try (rewrite <- (U _ S1) in T; discriminate); try (now destruct NM).
              exfalso. rewrite (U _ S1) in M1. apply (present_contains _ _ Wv) in Cv. apply (contains_false _ _ Wv) in M1. congruence.
        -- assert (Mv := proj1 (contains_false _ _ Wv) Cv). destruct (proj1 X1 eq_refl) as [[P1 M1]|[P1 M1]]; [apply (present_contains _ _ Wv) in P1; congruence|]. rewrite (proj2 (present_contains _ _ Wv) P1).
           split.
           ++ intros E. apply bind_ok in E. destruct E as (f & Ef & E). apply validate_ok in E. destruct E as [Ea To]. apply (evaluates_object p name ctx fp sf f WP NP Pr) in Ef. apply apply_factory_spec in Ea.
              split; [eapply b_factory; eauto|assumption].
           ++ intros [B To]. inversion B as [ns o' S1 T1 P2 M2 E|ns f o' S1 T1 P2 M2 E A|s o' S1|s f o' S1|s o' S1|o' M|f o' M]; subst; try tauto; try (rewrite <- (U _ S1) in T; discriminate); try (now destruct NM).
              ** exfalso. rewrite (U _ S1) in P2. apply (present_contains _ _ Wv) in P2. congruence.
              ** rewrite (proj2 (evaluates_object p name ctx fp sf f WP NP Pr) E). cbn [bind]. rewrite (U _ S1) in A. apply validate_ok. split; [|assumption]. now apply apply_factory_spec.
      * cbn [bind]. split; [discriminate|]. intros [B To]. exfalso. assert (Raise e <> Ok tt) as NE by discriminate. rewrite X1 in NE. apply NE.
        inversion B as [ns o' S1 T1 P2 M2 E|ns f o' S1 T1 P2 M2 E A|s o' S1|s f o' S1|s o' S1|o' M|f o' M]; subst; try tauto; try (rewrite <- (U _ S1) in T; discriminate); try (now destruct NM).
        -- rewrite (U _ S1) in *. auto.
        -- rewrite (U _ S1) in *. auto.
    + assert (forall b : Prop, (exists ns, Stored p name ns /\ is_params ns = true) -> b) as NN by (intros b (ns & S1 & T1); rewrite (U _ S1) in T1; congruence).
      destruct (is_str v) eqn:Ts.
      * destruct v as [| | | |s| | | | | |]; try discriminate. rewrite (proj2 (string_spec p name (PStr s) W)) by auto. cbn [bind str_of]. cbv zeta.
        assert (forall s', Stored p name (PStr s') -> s' = s) as US by (intros s' S1; specialize (U _ S1); congruence).
        destruct (dfind sv s) as [x|] eqn:Dv.
        -- split.
           ++ intros E. destruct (ty x) eqn:Tx; [|discriminate]. injection E as ->. split; [eapply b_special_value; eauto|assumption].
           ++ intros [B To]. inversion B as [ns o' S1 T1 P2 M2 E|ns f o' S1 T1 P2 M2 E A|s' o' S1 D1|s' f o' S1 D1 D2 A|s' o' S1 D1 D2 R|o' M|f o' M]; subst; try (apply NN; eauto; fail); try (now destruct NM); rewrite (US _ S1) in D1; try congruence.
              rewrite Dv in D1. injection D1 as ->. now rewrite To.
        -- destruct (dfind sf s) as [x|] eqn:Df.
           ++ rewrite Em. cbn [bind]. rewrite validate_ok, apply_factory_spec. split.
              ** intros [A To]. split; [eapply b_special_factory; eauto|assumption].
              ** intros [B To]. split; [|assumption]. inversion B as [ns o' S1 T1 P2 M2 E|ns f o' S1 T1 P2 M2 E A|s' o' S1 D1|s' f o' S1 D1 D2 A|s' o' S1 D1 D2 R|o' M|f o' M]; subst; try (apply NN; eauto; fail); try (now destruct NM).
                 --- rewrite (US _ S1) in D1. congruence.
                 --- assumption.
                 --- rewrite (US _ S1) in D2. congruence.
           ++ rewrite validate_ok, (eval_in_spec _ _ _ (proper_package_of s)) by (intros n; symmetry; apply proper_package_in). rewrite or_else_given. split.
              ** intros [[R To] _]. split; [eapply b_string; eauto|assumption].
              ** intros [B To]. inversion B as [ns o' S1 T1 P2 M2 E|ns f o' S1 T1 P2 M2 E A|s' o' S1 D1|s' f o' S1 D1 D2 A|s' o' S1 D1 D2 R|o' M|f o' M]; subst; try (apply NN; eauto; fail); try (now destruct NM).
                 --- rewrite (US _ S1) in D1. congruence.
                 --- rewrite (US _ S1) in D2. congruence.
                 --- rewrite (US _ S1) in R. auto.
      * split.
        -- intros E. exfalso. apply bind_ok in E. destruct E as (w & E & _). apply (string_spec _ _ _ W) in E. destruct E as [S1 T1]. rewrite (U _ S1) in T1. congruence.
        -- intros [B To]. exfalso. inversion B as [ns o' S1 T1 P2 M2 E|ns f o' S1 T1 P2 M2 E A|s' o' S1 D1|s' f o' S1 D1 D2 A|s' o' S1 D1 D2 R|o' M|f o' M]; subst; try (apply NN; eauto; fail); try (now destruct NM); rewrite <- (U _ S1) in Ts; discriminate.
  - assert (M := proj1 (contains_false _ _ W) C). assert (forall v, Stored p name v -> v = PNone) as U.
    { intros v Sv. destruct M as [A|Sn]; [destruct (A _ Sv)|]. eapply stored_unique; eauto. }
    assert (forall v (b : Prop), Stored p name v -> v <> PNone -> b) as NN by (intros v b Sv N; destruct N; auto).
    split.
    + intros E. destruct dv as [d|].
      * destruct (ty d) eqn:Td; [|discriminate]. injection E as ->. split; [eapply b_default; eauto|assumption].
      * destruct df as [f|]; [|discriminate]. rewrite Em in E. cbn [bind] in E. apply validate_ok in E. destruct E as [A To]. apply apply_factory_spec in A. split; [eapply b_default_factory; eauto|assumption].
    + intros [B To]. inversion B as [ns o' S1 T1 P2 M2 E|ns f o' S1 T1 P2 M2 E A|s' o' S1 D1|s' f o' S1 D1 D2 A|s' o' S1 D1 D2 R|o' M2 E|f o' M2 E1 E2 A]; subst.
      * apply (NN ns); [assumption|intros ->; discriminate].
      * apply (NN ns); [assumption|intros ->; discriminate].
      * apply (NN _ _ S1). discriminate.
      * apply (NN _ _ S1). discriminate.
      * apply (NN _ _ S1). discriminate.
      * now rewrite To.
      * rewrite Em. cbn [bind]. apply validate_ok. split; [|assumption]. now apply apply_factory_spec.
Qed.
(** In particular the expected type is always enforced. *)
Theorem C53_expected_type : forall p name ty ctx vp fp sv sf dv df o, wf_params p ->
  object_from_parameters p name ty ctx vp fp sv sf dv df = Ok o -> ty o = true.
Proof using eval_ext. intros p name ty ctx vp fp sv sf dv df o W E. now apply C53_object_from_parameters in E. Qed.
(** Nothing specified, or both specified: a ParameterError. *)
Theorem C53_underspecified : forall p name ty ctx vp fp sv sf, wf_params p ->
  (Missing p name -> object_from_parameters p name ty ctx vp fp sv sf None None = Raise ParameterError) /\
  (forall ns dv df, Stored p name ns -> is_params ns = true -> (Missing ns vp /\ Missing ns fp) \/ (present_ ns vp /\ present_ ns fp) ->
     object_from_parameters p name ty ctx vp fp sv sf dv df = Raise ParameterError).
Proof.
  intros p name ty ctx vp fp sv sf [W _]. unfold ParamsEval.object_from_parameters. split.
  - intros M. apply (contains_false _ _ W) in M. now rewrite M.
  - intros ns dv df Sn T H. assert (contains p name = true) as ->. { apply contains_spec; [assumption|]. exists ns. split; [assumption|]. intros ->. discriminate. }
    assert (has_namespace p name = true) as ->. { unfold has_namespace. destruct (private_get_spec p name true PNone W) as [G _]. now rewrite (G ns (cand_stored _ _ _ _ Sn)). }
    assert (namespace p name = Ok ns) as ->. { unfold namespace. destruct (get_spec p name is_params PNone W) as (G & _ & _). apply G; [now constructor|assumption]. }
    cbn [bind]. assert (Wn := stored_wf _ _ _ W Sn). assert (assert_exactly_one_present ns [vp; fp] = Raise ParameterError) as ->; [|reflexivity].
    unfold assert_exactly_one_present. cbn [filter]. destruct H as [[M1 M2]|[P1 P2]].
    + apply (contains_false _ _ Wn) in M1. apply (contains_false _ _ Wn) in M2. now rewrite M1, M2.
    + apply (present_contains _ _ Wn) in P1. apply (present_contains _ _ Wn) in P2. now rewrite P1, P2.
Qed.
(** Documented: a string that is a key of special_factories selects that factory.  Refuted: the
    default factory is used instead (and without one the call fails). *)
Theorem C53_special_factory_refuted : forall p name ty ctx vp fp sv sf s f dv, wf_params p -> Stored p name (PStr s) -> dfind sv s = None -> dfind sf s = Some f ->
  is_class none_obj = false -> callable none_obj = false ->
  object_from_parameters p name ty ctx vp fp sv sf dv None = Raise ParameterError.
Proof.
  intros p name ty ctx vp fp sv sf s f dv [W _] S1 D1 D2 NC NL. unfold ParamsEval.object_from_parameters.
  assert (contains p name = true) as ->. { apply contains_spec; [assumption|]. exists (PStr s). split; [assumption|discriminate]. }
  assert (has_namespace p name = false) as ->. { unfold has_namespace. destruct (private_get_spec p name true PNone W) as [G _]. now rewrite (G _ (cand_stored _ _ _ _ S1)). }
  rewrite (proj2 (string_spec p name (PStr s) W)) by auto. cbn [bind str_of]. cbv zeta. rewrite D1, D2. cbn [bind]. unfold ParamsEval.apply_factory. change (empty_params (extend_prefix (params_prefix p) name)) with (@Ok pv (PParams (map (fun c => [c]) name) [])).
  cbn [bind]. now rewrite NC, NL.
Qed.
End P.

(** ** Concrete cases.  Objects: strings, module objects, numbers, and two factories. *)
Inductive obj1 := OStr (s : str) | OMod (s : str) | ONum (z : Z) | OFactory | OClass | ONone | OParams (p : pv).
Definition import1 (n : str) : res obj1 := if existsb (str_eqb n) [!!"a"; !!"a.b"] then Ok (OMod n) else Raise AnyError.
(** A tiny evaluator: "a.b.f" needs a and a.b to be imported; "g" is a class; special values that are not
    strings cannot be evaluated. *)
Definition eval1 (code : obj1) (c : list (str * obj1)) : res obj1 :=
  match code with
  | OStr s => if str_eqb s !!"a.b.f" then match dfind c !!"a", dfind c !!"a.b" with Some _, Some _ => Ok OFactory | _, _ => Raise AnyError end
              else if str_eqb s !!"g" then Ok OClass
              else if str_eqb s !!"7" then Ok (ONum 7) else Raise AnyError
  | _ => Raise TypeError
  end.
Definition ofp ty p name := object_from_parameters obj1 OStr import1 eval1 (fun _ _ => []) [] (fun o => match o with OClass => true | _ => false end)
  (fun _ => None) (fun _ => Ok (ONum 1)) (fun o => match o with OFactory => true | _ => false end) (fun _ p => Ok (OParams p)) ONone p name ty.
Definition is_num (o : obj1) : bool := match o with ONum _ => true | _ => false end.
Definition any_obj (o : obj1) : bool := true.
Definition ex_eval : pv := PParams [] [(!!"n", PStr !!"7");
  (!!"v", PParams [!!"v"] [(!!"value", PStr !!"7")]);
  (!!"f", PParams [!!"f"] [(!!"factory", PStr !!"a.b.f"); (!!"import", PList [PStr !!"a.b"]); (!!"size", PInt 3)]);
  (!!"c", PParams [!!"c"] [(!!"factory", PStr !!"g")]);
  (!!"bare", PStr !!"a.b.f"); (!!"sp", PStr !!"special");
  (!!"spv", PParams [!!"spv"] [(!!"value", PStr !!"special")])].
Example C53_hypotheses : wf_params ex_eval /\ (forall code c c', (forall n, dfind c n = dfind c' n) -> eval1 code c = eval1 code c').
Proof.
  split; [split; [|reflexivity]; simpl; repeat split; repeat constructor; simpl; unfold dotless; simpl; intuition discriminate|].
  intros code c c' H. destruct code; try reflexivity. simpl. now rewrite !H.
Qed.
Example C53_witness :
  ofp is_num ex_eval !!"n" None !!"value" !!"factory" [] [] None None = Ok (ONum 7) /\
  ofp is_num ex_eval !!"v" None !!"value" !!"factory" [] [] None None = Ok (ONum 7) /\
  ofp any_obj ex_eval !!"f" None !!"value" !!"factory" [] [] None None =
    Ok (OParams (PParams [!!"f"] [(!!"factory", PStr !!"a.b.f"); (!!"import", PList [PStr !!"a.b"]); (!!"size", PInt 3)])) /\
  ofp is_num ex_eval !!"c" None !!"value" !!"factory" [] [] None None = Ok (ONum 1) /\
  ofp any_obj ex_eval !!"bare" None !!"value" !!"factory" [] [] None None = Ok OFactory /\
  ofp is_num ex_eval !!"bare" None !!"value" !!"factory" [] [] None None = Raise TypeError /\
  ofp is_num ex_eval !!"sp" None !!"value" !!"factory" [(!!"special", ONum 9)] [] None None = Ok (ONum 9) /\
  ofp is_num ex_eval !!"missing" None !!"value" !!"factory" [] [] (Some (ONum 2)) None = Ok (ONum 2) /\
  ofp is_num ex_eval !!"missing" None !!"value" !!"factory" [] [] (Some ONone) None = Raise ParameterError.
Proof. repeat split; vm_compute; reflexivity. Qed.
(** Documented: special_values also apply to the value parameter inside a namespace.  Refuted: there the
    special value is evaluated as code. *)
Theorem C53_special_value_in_namespace_refuted :
  ofp is_num ex_eval !!"spv" None !!"value" !!"factory" [(!!"special", ONum 9)] [] None None = Raise ParameterError.
Proof. vm_compute. reflexivity. Qed.
(** The default factory gets an empty namespace whose prefix is the characters of the name, not the
    prefix extended by the name. *)
Theorem C53_default_factory_prefix_refuted :
  ofp any_obj ex_eval !!"xy" None !!"value" !!"factory" [] [] None (Some OFactory) = Ok (OParams (PParams [!!"x"; !!"y"] [])).
Proof. vm_compute. reflexivity. Qed.
Print Assumptions C53_evaluate.
Print Assumptions C53_object_from_parameters.
Print Assumptions C53_underspecified.
Print Assumptions C53_special_factory_refuted.
