(** * Typed getters (C46, C47) and the YAML writer's preprocessing (C54). *)
From Verif Require Import Prelude PyStr Order Range Params ParamsSpec ParamsProofs ParamsGet.

(** What a getter with acceptance condition [acc] does: the stored value, or else the default, is
    returned if accepted and rejected with an exception otherwise; no value, no default: a
    ParameterError. *)
Definition getter_table (p : pv) (name : str) (default : pv) (acc : pv -> Prop) (result : res pv) : Prop :=
  (forall v, Candidate p name default v -> acc v -> result = Ok v) /\
  (forall v, Candidate p name default v -> ~ acc v -> exists e, result = Raise e /\ wrong_type v e) /\
  ((forall v, ~ Candidate p name default v) -> result = Raise ParameterError).
(** An optional getter: the default (or None) is returned when the parameter is missing or null. *)
Definition optional_table (p : pv) (name : str) (default : res pv) (acc : pv -> Prop) (result : res pv) : Prop :=
  (forall v, Stored p name v -> v <> PNone -> acc v -> result = Ok v) /\
  (forall v, Stored p name v -> v <> PNone -> ~ acc v -> exists e, result = Raise e /\ wrong_type v e) /\
  (Absent p name \/ Stored p name PNone -> result = default).

(** Which values are accepted. *)
Definition acc_string (valid : option (list str)) (v : pv) : Prop :=
  exists s, v = PStr s /\ forall l, valid = Some l -> In s l.
Inductive int_value : pv -> Z -> Prop :=
| iv_int z : int_value (PInt z) z
| iv_true : int_value (PBool true) 1%Z
| iv_false : int_value (PBool false) 0%Z.
Definition acc_integer (valid : range Z) (v : pv) : Prop := exists z, int_value v z /\ Range.contains valid z = true.
Definition acc_positive (v : pv) : Prop := exists z, int_value v z /\ (z > 0)%Z.
Definition acc_float (valid : option (N -> bool)) (v : pv) : Prop :=
  exists f, v = PFloat f /\ forall r, valid = Some r -> r f = true.
Definition acc_bool (v : pv) : Prop := exists b, v = PBool b.
Definition acc_list (v : pv) : Prop := exists l, v = PList l.
Definition acc_namespace (v : pv) : Prop := exists pre d, v = PParams pre d.
Definition all_ints : range Z := MkRange BelowAll AboveAll.

Lemma wt_nonparams v : is_params v = false -> wrong_type v ParameterError.
Proof. intros H. apply wt_param. congruence. Qed.
Lemma table_of_get p name default ty acc : wf p -> (forall v, ty v = true <-> acc v) ->
  getter_table p name default acc (get p name ty default).
Proof.
  intros W A. destruct (get_spec p name ty default W) as (H1 & H2 & H3). split; [|split]; auto.
  - intros v C K. apply H1; [assumption|now apply A].
  - intros v C K. apply H2; [assumption|]. destruct (ty v) eqn:E; [apply A in E; contradiction|reflexivity].
Qed.
(** A getter that filters the result of [get] further. *)
Lemma table_of_filter p name default ty (ok : pv -> bool) acc r : wf p ->
  (forall v, ty v = true -> is_params v = false) ->
  (forall v, ty v = true /\ ok v = true <-> acc v) ->
  r = (let* ret := get p name ty default in if ok ret then Ok ret else Raise ParameterError) ->
  getter_table p name default acc r.
Proof.
  intros W NP A ->. destruct (get_spec p name ty default W) as (H1 & H2 & H3). split; [|split].
  - intros v C K. apply A in K. destruct K as [K1 K2]. rewrite (H1 v C K1). simpl. now rewrite K2.
  - intros v C K. destruct (ty v) eqn:E.
    + rewrite (H1 v C E). simpl. destruct (ok v) eqn:F; [exfalso; apply K; apply A; auto|]. exists ParameterError. split; [reflexivity|]. now apply wt_nonparams, NP.
    + destruct (H2 v C E) as (e & -> & X). exists e. auto.
  - intros N. now rewrite (H3 N).
Qed.
Lemma optional_of_getter p name acc r default : wf p -> getter_table p name PNone acc r ->
  optional_table p name default acc (if contains p name then r else default).
Proof.
  intros W (H1 & H2 & H3). split; [|split].
  - intros v S1 N A. assert (contains p name = true) as -> by (apply contains_spec; eauto). apply H1; [now constructor|assumption].
  - intros v S1 N A. assert (contains p name = true) as -> by (apply contains_spec; eauto). apply H2; [now constructor|assumption].
  - intros H. apply (contains_false _ _ W) in H. now rewrite H.
Qed.
Lemma bind_if {A} (r : res A) (f g : A -> res A) : (forall a, f a = g a) -> bind r f = bind r g.
Proof. intros H. destruct r; simpl; auto. Qed.
Lemma bind_bind {A B C} (r : res A) (f : A -> res B) (g : B -> res C) : bind (bind r f) g = bind r (fun a => bind (f a) g).
Proof. destruct r; reflexivity. Qed.

(** C46: the required getters. *)
Theorem C46_required_getters : forall p name default, wf_params p ->
  (forall valid, getter_table p name default (acc_string valid) (string_ p name valid default)) /\
  (forall valid, getter_table p name default (acc_integer valid) (integer p name default valid)) /\
  getter_table p name default acc_positive (positive_integer p name default) /\
  (forall valid, getter_table p name default (acc_float valid) (floating_point p name valid default)) /\
  getter_table p name default acc_bool (boolean p name default) /\
  getter_table p name default acc_list (arbitrary_list p name default) /\
  getter_table p name PNone acc_namespace (namespace p name).
Proof.
  intros p name default [W _]. repeat match goal with |- _ /\ _ => split end; intros.
  - eapply (table_of_filter p name default is_str (fun v => match valid, v with Some l, PStr s => existsb (str_eqb s) l | _, _ => true end)); try assumption.
    + intros []; simpl; congruence.
    + intros v. unfold acc_string. split.
      * intros [T K]. destruct v; try discriminate. exists s. split; [reflexivity|]. intros l ->. apply existsb_exists in K. destruct K as (x & I & E). apply str_eqb_eq in E. now subst.
      * intros (s & -> & K). split; [reflexivity|]. destruct valid as [l|]; [|reflexivity]. apply existsb_exists. exists s. split; [auto|apply str_eqb_refl].
    + unfold string_. apply bind_if. intros a. destruct valid as [l|]; [|destruct a; reflexivity]. destruct a; reflexivity.
  - eapply (table_of_filter p name default is_int (fun v => Range.contains valid (int_of v))); try assumption; [|..].
    + intros []; simpl; congruence.
    + intros v. unfold acc_integer. split.
      * intros [T K]. destruct v; try discriminate; [destruct b|]; eexists; (split; [constructor|exact K]).
      * intros (z & I & K). inversion I; subst; auto.
    + reflexivity.
  - eapply (table_of_filter p name default is_int (fun v => Range.contains all_ints (int_of v) && (int_of v >? 0)%Z)); try assumption.
    + intros []; simpl; congruence.
    + intros v. unfold acc_positive. split.
      * intros [T K]. destruct v; try discriminate; [destruct b|]; simpl in K; try discriminate; eexists; (split; [constructor|lia]).
      * intros (z & I & K). inversion I; subst; simpl; split; try reflexivity; lia.
    + unfold positive_integer, integer. rewrite bind_bind. apply bind_if. intros a. fold all_ints. destruct (Range.contains all_ints (int_of a)); reflexivity.
  - eapply (table_of_filter p name default is_float (fun v => match valid, v with Some r, PFloat f => r f | _, _ => true end)); try assumption.
    + intros []; simpl; congruence.
    + intros v. unfold acc_float. split.
      * intros [T K]. destruct v; try discriminate. exists f. split; [reflexivity|]. intros r ->. exact K.
      * intros (f & -> & K). split; [reflexivity|]. destruct valid; auto.
    + unfold floating_point. apply bind_if. intros a. destruct valid as [l|]; [|destruct a; reflexivity]. destruct a; reflexivity.
  - apply table_of_get; [assumption|]. intros v. unfold acc_bool. destruct v; simpl; split; try discriminate; try (intros (? & ?); discriminate); eauto.
  - apply table_of_get; [assumption|]. intros v. unfold acc_list. destruct v; simpl; split; try discriminate; try (intros (? & ?); discriminate); eauto.
  - apply table_of_get; [assumption|]. intros v. unfold acc_namespace. destruct v; simpl; split; try discriminate; try (intros (? & ? & ?); discriminate); eauto.
Qed.
Print Assumptions C46_required_getters.

Lemma optional_get_table p name default ty acc : wf p -> (forall v, ty v = true <-> acc v) ->
  optional_table p name (Ok default) acc (get_optional p name ty default).
Proof.
  intros W A. destruct (get_optional_spec p name ty default W) as (H1 & H2 & H3). split; [|split]; auto.
  - intros v C N K. apply H1; auto. now apply A.
  - intros v C N K. apply H2; auto. destruct (ty v) eqn:E; [apply A in E; contradiction|reflexivity].
Qed.
(** C46: the optional getters, with their actual behaviour for missing parameters. *)
Theorem C46_optional_getters : forall float_truthy p name, wf_params p ->
  (forall valid default, optional_table p name (Ok default) (acc_string valid) (optional_string p name valid default)) /\
  (forall default, optional_table p name (Ok default) (acc_integer all_ints) (optional_integer p name default)) /\
  (forall default, optional_table p name (Ok default) acc_bool (optional_boolean p name default)) /\
  optional_table p name (Ok PNone) acc_positive (optional_positive_integer p name PNone) /\
  (forall z, optional_table p name (if (z =? 0)%Z then Ok PNone else if (z >? 0)%Z then Ok (PInt z) else Raise ParameterError)
               acc_positive (optional_positive_integer p name (PInt z))) /\
  (forall valid, optional_table p name (Ok PNone) (acc_float valid) (optional_floating_point float_truthy p name valid PNone)) /\
  (forall (valid : option (N -> bool)) (f : N), optional_table p name
      (if float_truthy f then match valid with Some r => if r f then Ok (PFloat f) else Raise ParameterError | None => Ok (PFloat f) end
       else Ok PNone) (acc_float valid) (optional_floating_point float_truthy p name valid (PFloat f))) /\
  optional_table p name (Ok PNone) acc_list (optional_arbitrary_list p name None) /\
  (forall l, optional_table p name (Ok (match l with [] => PNone | _ => PList l end)) acc_list (optional_arbitrary_list p name (Some l))).
Proof.
  intros float_truthy p name [W P]. destruct (C46_required_getters p name PNone (conj W P)) as (Hs & Hi & Hp & Hf & Hb & Hl & Hn).
  repeat match goal with |- _ /\ _ => split end; intros.
  - apply optional_of_getter; auto.
  - apply optional_of_getter; auto; apply Hi.
  - apply optional_get_table; [assumption|]. intros v. unfold acc_bool. destruct v; simpl; split; try discriminate; try (intros (? & ?); discriminate); eauto.
  - apply optional_of_getter; auto.
  - unfold optional_positive_integer. assert ((if is_int (PInt z) && negb (int_of (PInt z) =? 0)%Z then if (int_of (PInt z) >? 0)%Z then @Ok pv (PInt z) else Raise ParameterError else Ok PNone)
      = (if (z =? 0)%Z then Ok PNone else if (z >? 0)%Z then Ok (PInt z) else Raise ParameterError)) as <-.
    { simpl. destruct (z =? 0)%Z; reflexivity. }
    apply optional_of_getter; auto.
  - apply (optional_of_getter p name _ _ (Ok PNone)); auto.
  - apply (optional_of_getter p name _ _ (if float_truthy f then match valid with Some r => if r f then Ok (PFloat f) else Raise ParameterError | None => Ok (PFloat f) end else Ok PNone)); auto.
  - apply optional_get_table; [assumption|]. intros v. unfold acc_list. destruct v; simpl; split; try discriminate; try (intros (? & ?); discriminate); eauto.
  - destruct l as [|x l]; apply optional_get_table; try assumption; intros v; unfold acc_list; destruct v; simpl; split; try discriminate; try (intros (? & ?); discriminate); eauto.
Qed.
Print Assumptions C46_optional_getters.
(** C46: namespaces and enums. *)
Theorem C46_namespaces : forall p name, wf_params p ->
  (forall v, Stored p name v -> v <> PNone ->
     optional_namespace p name = Ok (if is_params v then v else PNone) /\
     namespace_or_empty p name = (if is_params v then Ok v else Raise ParameterError)) /\
  (Absent p name \/ Stored p name PNone -> optional_namespace p name = Ok PNone /\
     exists e, namespace_or_empty p name = Ok e /\ view e [] = Some Namespace /\ (forall k q, view e (k :: q) = None) /\
               params_prefix e = params_prefix p ++ [name]).
Proof.
  intros p name [W P]. destruct (get_optional_spec p name is_object PNone W) as (H1 & H2 & H3). unfold optional_namespace, namespace_or_empty. split.
  - intros v S1 N. rewrite (H1 v S1 N eq_refl). simpl. split; [reflexivity|]. destruct (is_params v); [reflexivity|]. apply is_none_neq in N. now rewrite N.
  - intros H. rewrite (H3 H). simpl. split; [reflexivity|]. eexists. split; [reflexivity|]. auto.
Qed.
Print Assumptions C46_namespaces.
Theorem C46_enum : forall truthy p name members default, wf_params p ->
  (forall s, Stored p name (PStr s) -> In s members -> enum truthy p name members default = Ok (enum_member s)) /\
  (forall s, Stored p name (PStr s) -> ~ In s members -> enum truthy p name members default = Raise ParameterError) /\
  (forall v, Stored p name v -> v <> PNone -> is_str v = false -> exists e, enum truthy p name members default = Raise e /\ wrong_type v e) /\
  (Absent p name \/ Stored p name PNone ->
     enum truthy p name members default = match default with Some d => if truthy d then Ok (enum_member d) else Raise ParameterError | None => Raise ParameterError end).
Proof.
  intros truthy p name members default [W P]. destruct (C46_optional_getters (fun _ => true) p name (conj W P)) as (Hs & _). destruct (Hs None PNone) as (S1 & S2 & S3).
  destruct (C46_required_getters p name PNone (conj W P)) as (Hr & _). destruct (Hr None) as (R1 & R2 & R3). unfold enum. repeat match goal with |- _ /\ _ => split end.
  - intros s S0 I. rewrite (S1 _ S0); [|discriminate|exists s; split; [reflexivity|discriminate]]. simpl. assert (existsb (str_eqb s) members = true) as ->; [|reflexivity].
    apply existsb_exists. exists s. split; [assumption|apply str_eqb_refl].
  - intros s S0 I. rewrite (S1 _ S0); [|discriminate|exists s; split; [reflexivity|discriminate]]. simpl. destruct (existsb (str_eqb s) members) eqn:E; [|reflexivity].
    apply existsb_exists in E. destruct E as (x & J & E). apply str_eqb_eq in E. subst. contradiction.
  - intros v S0 N T. destruct (S2 v S0 N) as (e & -> & X); [intros (s & -> & _); discriminate|]. exists e. auto.
  - intros H. rewrite (S3 H). simpl. assert (string_ p name None PNone = Raise ParameterError) as ->.
    { destruct H as [A|S0]; [apply R3; now apply no_candidate|]. destruct (R2 PNone (cand_stored _ _ _ _ S0)) as (e & E & X); [intros (s & F & _); discriminate|].
      rewrite E. inversion X; [reflexivity|discriminate]. }
    destruct default; reflexivity.
Qed.
Print Assumptions C46_enum.
(** The documented contract "a ParameterError for a value of the wrong type" fails for a namespace
    that contains a null: printing it into the message raises a RuntimeError instead. *)
Theorem C46_wrong_exception_refuted : exists p, wf_params p /\ Stored p !!"a" (PParams [!!"a"] [(!!"b", PNone)]) /\
  integer p !!"a" PNone all_ints = Raise RuntimeError.
Proof.
  exists (PParams [] [(!!"a", PParams [!!"a"] [(!!"b", PNone)])]).
  assert (W : wf_params (PParams [] [(!!"a", PParams [!!"a"] [(!!"b", PNone)])])).
  { split; [|reflexivity]. simpl. repeat split; repeat constructor; simpl; unfold dotless; simpl; intuition discriminate. }
  split; [exact W|]. split; [|reflexivity]. destruct W as [W _]. now apply stored_walk.
Qed.
Print Assumptions C46_wrong_exception_refuted.
(** integer() accepts booleans. *)
Theorem C46_bool_is_integer_refuted : exists p, from_mapping (PMap [(!!"a", PBool true)]) [] = Ok p /\
  integer p !!"a" PNone all_ints = Ok (PBool true).
Proof. eexists. split; reflexivity. Qed.
Print Assumptions C46_bool_is_integer_refuted.
(** An explicit null is not replaced by the default of a required getter. *)
Theorem C46_null_with_default : forall p name d, wf_params p -> Stored p name PNone ->
  integer p name d all_ints = Raise ParameterError /\ boolean p name d = Raise ParameterError /\ string_ p name None d = Raise ParameterError.
Proof.
  intros p name d W S0. destruct (C46_required_getters p name d W) as (Hs & Hi & _ & _ & Hb & _).
  assert (C : Candidate p name d PNone) by (now constructor).
  destruct (Hs None) as (_ & S2 & _), (Hi all_ints) as (_ & I2 & _), Hb as (_ & B2 & _).
  destruct (S2 PNone C) as (e1 & -> & X1); [intros (s & F & _); discriminate|].
  destruct (I2 PNone C) as (e2 & -> & X2); [intros (z & F & _); inversion F|].
  destruct (B2 PNone C) as (e3 & -> & X3); [intros (b & F); discriminate|].
  inversion X1; inversion X2; inversion X3; try discriminate; auto.
Qed.
Print Assumptions C46_null_with_default.
Definition ex_params : pv := PParams [] [(!!"n", PInt 5); (!!"s", PStr !!"red"); (!!"z", PNone); (!!"ns", PParams [!!"ns"] [(!!"b", PBool false)])].
Lemma ex_params_wf : wf_params ex_params.
Proof. split; [|reflexivity]. simpl. repeat split; repeat constructor; simpl; unfold dotless; simpl; intuition discriminate. Qed.
Example C46_witness : wf_params ex_params /\ integer ex_params !!"n" PNone all_ints = Ok (PInt 5) /\
  positive_integer ex_params !!"q" (PInt 7) = Ok (PInt 7) /\ positive_integer ex_params !!"q" (PInt 0) = Raise ParameterError /\
  string_ ex_params !!"s" (Some [!!"green"]) PNone = Raise ParameterError /\ boolean ex_params !!"ns.b" PNone = Ok (PBool false) /\
  enum (fun _ => true) ex_params !!"s" [!!"red"] None = Ok (enum_member !!"red").
Proof. split; [apply ex_params_wf|]. repeat split. Qed.

(** C47: which optional getters return the given default when the parameter is absent. *)
Theorem C47_defaults : forall float_truthy p name, wf_params p -> Absent p name ->
  (forall valid default, optional_string p name valid default = Ok default) /\
  (forall default, optional_integer p name default = Ok default) /\
  (forall default, optional_boolean p name default = Ok default) /\
  (forall z, (z > 0)%Z -> optional_positive_integer p name (PInt z) = Ok (PInt z)) /\
  (forall f, float_truthy f = true -> optional_floating_point float_truthy p name None (PFloat f) = Ok (PFloat f)) /\
  (forall x l, optional_arbitrary_list p name (Some (x :: l)) = Ok (PList (x :: l))).
Proof.
  intros ft p name W A. destruct (C46_optional_getters ft p name W) as (Hs & Hi & Hb & _ & Hp & _ & Hf & _ & Hl).
  repeat match goal with |- _ /\ _ => split end; intros.
  - apply Hs. auto.
  - apply Hi. auto.
  - apply Hb. auto.
  - destruct (Hp z) as (_ & _ & H3). rewrite H3 by auto. replace (z =? 0)%Z with false by lia. now replace (z >? 0)%Z with true by lia.
  - destruct (Hf None f) as (_ & _ & H3). rewrite H3 by auto. now rewrite H.
  - destruct (Hl (x :: l)) as (_ & _ & H3). now rewrite H3 by auto.
Qed.
Print Assumptions C47_defaults.
(** The claim fails for falsy defaults: 0.0, 0 and [] are dropped and None is returned. *)
Theorem C47_falsy_defaults_refuted : forall float_truthy p name, wf_params p -> Absent p name ->
  (forall f valid, float_truthy f = false -> optional_floating_point float_truthy p name valid (PFloat f) = Ok PNone) /\
  optional_positive_integer p name (PInt 0) = Ok PNone /\
  optional_arbitrary_list p name (Some []) = Ok PNone.
Proof.
  intros ft p name W A. destruct (C46_optional_getters ft p name W) as (Hs & Hi & Hb & _ & Hp & _ & Hf & _ & Hl).
  repeat match goal with |- _ /\ _ => split end; intros.
  - destruct (Hf valid f) as (_ & _ & H3). rewrite H3 by auto. now rewrite H.
  - destruct (Hp 0%Z) as (_ & _ & H3). now rewrite H3 by auto.
  - destruct (Hl []) as (_ & _ & H3). now rewrite H3 by auto.
Qed.
Print Assumptions C47_falsy_defaults_refuted.
Example C47_witness : wf_params ex_params /\ Absent ex_params !!"missing" /\ optional_integer ex_params !!"missing" (PInt 0) = Ok (PInt 0) /\
  optional_floating_point (fun f => negb (f =? 0)%N) ex_params !!"missing" None (PFloat 0) = Ok PNone.
Proof. split; [apply ex_params_wf|]. split; [apply absent_walk; [apply ex_params_wf|reflexivity]|]. split; reflexivity. Qed.

(** C54: the writer. *)
(** Paths are written as strings; everything else as it is. *)
Fixpoint to_yaml (v : pv) : pv :=
  match v with
  | PPath s => PStr s
  | PList l => PList (map to_yaml l)
  | PMap m => PMap (map (fun kv => (fst kv, to_yaml (snd kv))) m)
  | _ => v
  end.
Theorem C54_preprocess : forall v,
  (writable v -> preprocess v = Ok (to_yaml v)) /\ (~ writable v -> preprocess v = Raise RuntimeError).
Proof.
  intros v. split.
  - induction v using pv_ind_nested; intros Wv; try reflexivity; try (inversion Wv; fail).
    + rewrite preprocess_list. inversion Wv as [| | | | |? W'|]; subst. assert (mapM preprocess l = Ok (map to_yaml l)) as ->; [|reflexivity].
      clear Wv. induction H as [|x l Hx _ IH]; [reflexivity|]. simpl. rewrite Hx by (apply W'; simpl; auto). simpl. rewrite IH; [reflexivity|]. intros; apply W'; simpl; auto.
    + rewrite preprocess_map. inversion Wv as [| | | | | |? W']; subst. assert (mapM pre_item m = Ok (map (fun kv => (fst kv, to_yaml (snd kv))) m)) as ->; [|reflexivity].
      clear Wv. induction H as [|[k x] l Hx _ IH]; [reflexivity|]. simpl. unfold pre_item at 1. simpl in *. rewrite Hx by (eapply W'; simpl; eauto). simpl. rewrite IH; [reflexivity|]. intros; eapply W'; simpl; eauto.
  - intros N. pose proof (preprocess_spec v) as K. destruct (preprocess v); [contradiction|]. now destruct K as [-> _].
Qed.
Print Assumptions C54_preprocess.
(** Writing Parameters keeps every entry: the same paths in the same order, each leaf converted. *)
Theorem C54_no_entry_lost : forall p, wf_params p ->
  (printable p -> exists y, preprocess (dictify p) = Ok y /\
      leaves y = map (fun e => (fst e, to_yaml (snd e))) (leaves p) /\
      (forall q, view y q = match view p q with Some (Leaf v) => Some (Leaf (to_yaml v)) | o => o end)) /\
  (~ printable p -> preprocess (dictify p) = Raise RuntimeError).
Proof.
  intros p [W P]. split.
  - intros Pr. destruct (C54_preprocess (dictify p)) as [H _]. exists (to_yaml (dictify p)). split; [apply H; now apply writable_dictify|]. clear H Pr.
    assert (D : leaves (to_yaml (dictify p)) = map (fun e => (fst e, to_yaml (snd e))) (leaves p)).
    { clear P. induction p using pv_ind_nested; try reflexivity; [now simpl in W|]. apply wf_map in W. destruct W as (_ & _ & W). cbn [dictify to_yaml leaves].
      induction m as [|[k x] m IH]; [reflexivity|]. inversion H as [|? ? H1 H2]; subst. inversion W as [|? ? W1 W2]; subst. cbn [map flat_map fst snd] in *.
      rewrite map_app, <- IH by assumption. f_equal. rewrite (H1 W1), !map_map. reflexivity. }
    split; [exact D|]. clear D P. intros q. revert p W. induction q as [|k q IH]; intros p W.
    + destruct p; simpl in *; reflexivity || contradiction.
    + destruct p; try reflexivity; [now simpl in W|]. cbn [dictify to_yaml view].
      assert (dfind (map (fun kv => (fst kv, to_yaml (snd kv))) (map (fun kv => (fst kv, dictify (snd kv))) data)) k = option_map (fun x => to_yaml (dictify x)) (dfind data k)) as ->.
      { clear. induction data as [|[k' x] data IH]; [reflexivity|]. simpl. destruct (str_eqb k' k); [reflexivity|exact IH]. }
      destruct (dfind data k) as [x|] eqn:E; [|reflexivity]. simpl. apply IH. eapply wf_find; eauto.
  - intros N. destruct (C54_preprocess (dictify p)) as [_ H]. apply H. now rewrite writable_dictify.
Qed.
Print Assumptions C54_no_entry_lost.
(** Parameters holding a null (which the loader produces) cannot be written or printed. *)
Theorem C54_null_refuted : exists p, from_mapping (PMap [(!!"a", PNone)]) [] = Ok p /\ preprocess (dictify p) = Raise RuntimeError.
Proof. eexists. split; reflexivity. Qed.
Print Assumptions C54_null_refuted.
Example C54_witness : exists p, from_mapping (PMap [(!!"a", PPath !!"/x"); (!!"b", PMap [(!!"c", PList [PInt 1; PPath !!"y"])])]) [] = Ok p /\
  preprocess (dictify p) = Ok (PMap [(!!"a", PStr !!"/x"); (!!"b", PMap [(!!"c", PList [PInt 1; PStr !!"y"])])]).
Proof. eexists. split; reflexivity. Qed.
