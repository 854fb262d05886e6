(** * Property C89: names of classes, and evaluating them *)
From Verif Require Import Prelude PyStr Params ParamsSpec ParamsProofs ParamsGet ParamsEval ParamsEvalProps KvParams ClassNames.

Section P.
Variable X : Type.
Notation py := (py X).
Variable attr : py -> str -> option py.
Variable builtin : str -> option py.
Variable other_eval : str -> list (str * py) -> res py.
Variable import_module : str -> res py.
Variable locals_of : pv -> str -> list (str * py).
Variable globals_ctx : list (str * py).
Variable is_class : py -> bool.
Variable from_parameters : py -> option (pv -> res py).
Variable construct : py -> res py.
Variable callable : py -> bool.
Variable call : py -> pv -> res py.
Variable none_obj : py.
Hypothesis other_ext : forall s c c', (forall n, dfind c n = dfind c' n) -> other_eval s c = other_eval s c'.
Notation eval_name := (eval_name X attr builtin other_eval).
Notation attributes := (attributes X attr).
Notation fully_qualified_name := (fully_qualified_name X).
Notation evaluate := (evaluate py YStr import_module eval_name locals_of).
Notation object_from_parameters := (object_from_parameters py YStr import_module eval_name locals_of globals_ctx is_class from_parameters construct callable call none_obj).

(** ** Specification *)
(** The module [m] and the packages around it can be imported, and each is an attribute of the one around it. *)
Definition importable (m : str) : Prop :=
  forallb is_name (py_split dot m) = true /\ (forall n, package_of m n -> import_module n = Ok (YModule n)) /\
  (forall a x b, a <> [] -> py_split dot m = a ++ x :: b -> attr (YModule (dotted a)) x = Some (YModule (dotted (a ++ [x])))).
(** [o] is reached from [from] by the attributes [names]. *)
Inductive leads : py -> list str -> py -> Prop :=
| lead_here o : leads o [] o
| lead_step o n o' r o'' : attr o n = Some o' -> leads o' r o'' -> leads o (n :: r) o''.
(** The class with this __module__ and __qualname__ (with dots if it is nested) is found there. *)
Definition class_in (m q : str) : Prop := m <> !!"builtins" /\ forallb is_name (py_split dot q) = true /\ leads (YModule m) (py_split dot q) (YClass (Some m) q).
(** Nothing else is bound to the names of the packages. *)
Definition unshadowed (c : list (str * py)) (m : str) : Prop := forall n, package_of m n -> dfind c n = None \/ dfind c n = Some (YModule n).
Definition the_context (ctx : option (list (str * py))) (default : list (str * py)) : list (str * py) := match ctx with Some (b :: r) => b :: r | _ => default end.

Lemma eval_name_ext : forall code c c', (forall n, dfind c n = dfind c' n) -> eval_name code c = eval_name code c'.
Proof. intros code c c' H. unfold ClassNames.eval_name. destruct code as [s| | |]; try reflexivity. destruct (py_split dot s) as [|n r]; [now apply other_ext|]. destruct (forallb is_name (n :: r)); [now rewrite H|now apply other_ext]. Qed.
Lemma leads_attributes o ns o' : leads o ns o' <-> attributes o ns = Ok o'.
Proof.
  clear. split; [induction 1 as [|o n o1 r o2 A L IH]; cbn [ClassNames.attributes]; [reflexivity|now rewrite A]|]. revert o. induction ns as [|n ns IH]; intros o E; cbn [ClassNames.attributes] in E.
  - injection E as <-. constructor.
  - destruct (attr o n) as [o1|] eqn:A; [|discriminate]. econstructor; eauto.
Qed.
Lemma leads_app o a o1 b o2 : leads o a o1 -> leads o1 b o2 -> leads o (a ++ b) o2.
Proof. clear. induction 1; intros; [assumption|]. econstructor; eauto. Qed.
Lemma split_qualified m q : py_split dot (m ++ [dot] ++ q) = py_split dot m ++ py_split dot q.
Proof.
  clear. assert (E : m ++ [dot] ++ q = py_join [dot] (py_split dot m ++ py_split dot q)).
  { assert (J : forall l1 l2 : list str, l1 <> [] -> l2 <> [] -> py_join [dot] (l1 ++ l2) = py_join [dot] l1 ++ [dot] ++ py_join [dot] l2).
    { induction l1 as [|x l1 IH]; intros l2 N1 N2; [congruence|]. destruct l1 as [|y l1].
      - destruct l2 as [|z l2]; [congruence|]. reflexivity.
      - change (py_join [dot] ((x :: y :: l1) ++ l2)) with (x ++ [dot] ++ py_join [dot] ((y :: l1) ++ l2)). rewrite IH by (discriminate || assumption). change (py_join [dot] (x :: y :: l1)) with (x ++ [dot] ++ py_join [dot] (y :: l1)). now rewrite <- !app_assoc. }
    rewrite J by apply py_split_nonnil. now rewrite !py_split_join. }
  rewrite E. apply py_join_split.
  - intros N. apply app_eq_nil in N. destruct N as (N & _). now apply py_split_nonnil in N.
  - intros p I. apply in_app_or in I. destruct I as [I|I]; now apply py_split_parts in I.
Qed.
Lemma name_dotless q : is_name q = true -> ~ In dot q.
Proof.
  clear. unfold is_name. destruct q as [|c r]; [discriminate|]. intros H I. apply andb_true_iff in H. destruct H as (H & _). apply andb_true_iff in H. destruct H as (H1 & H2). rewrite forallb_forall in H2.
  destruct I as [->|I]; [vm_compute in H1; discriminate|]. specialize (H2 _ I). vm_compute in H2. discriminate.
Qed.
(** The module is reached from its outermost package. *)
Lemma leads_module m : importable m -> exists n r, py_split dot m = n :: r /\ package_of m n /\ leads (YModule n) r (YModule m).
Proof.
  clear. intros (_ & _ & A). assert (G : forall r a, a <> [] -> py_split dot m = a ++ r -> leads (YModule (dotted a)) r (YModule m)).
  { assert (Ej := py_split_join dot m). induction r as [|x r IH]; intros a Na E.
    - rewrite app_nil_r in E. rewrite <- E. unfold dotted. rewrite Ej. constructor.
    - econstructor; [apply (A a x r Na); exact E|]. apply IH; [destruct a; discriminate|]. now rewrite <- app_assoc. }
  clear A. destruct (py_split dot m) as [|n r] eqn:E; [now apply py_split_nonnil in E|]. exists n, r. split; [reflexivity|]. split; [exists [n], r; split; [discriminate|]; split; [assumption|reflexivity]|].
  apply (G r [n]); [discriminate|reflexivity].
Qed.
(** What the context binds after the imports. *)
Lemma runs_qualified c m q (needed : str -> Prop) : importable m -> class_in m q -> unshadowed c m -> (forall n, needed n <-> package_of m n) ->
  Runs py import_module eval_name (YStr (m ++ [dot] ++ q)) needed c (YClass (Some m) q).
Proof.
  clear other_ext. intros I (_ & Nq & L) U Hn. assert (I' := I). destruct I as (Nm & Im & _).
  pose proof (import_names py import_module (dotted_prefixes (py_split dot m)) c) as K.
  destruct (foldM (import_one py import_module) (dotted_prefixes (py_split dot m)) c) as [c'|e].
  - exists c'. split; [apply (imported_ext py import_module (fun n => In n (dotted_prefixes (py_split dot m)))); [|exact K]; intros n; rewrite package_of_in; symmetry; apply Hn|].
    unfold ClassNames.eval_name. rewrite split_qualified. destruct (leads_module m I') as (n & r & E & P & Lm). rewrite E in Nm |- *. cbn [app]. change (n :: r ++ py_split dot q) with ((n :: r) ++ py_split dot q). rewrite forallb_app, Nm, Nq. cbn [andb].
    assert (Dn : dfind c' n = Some (YModule n)).
    { specialize (K n). destruct (U n P) as [D|D]; rewrite D in K; [|assumption]. destruct K as (K & _). destruct (K (proj2 (package_of_in m n) P)) as (o & E1 & E2). rewrite (Im n P) in E1. now injection E1 as <-. }
    cbn [app]. rewrite Dn. apply leads_attributes. exact (leads_app _ _ _ _ _ Lm L).
  - destruct K as (n & e' & J & _ & E). apply package_of_in in J. rewrite (Im n J) in E. discriminate.
Qed.
Lemma proper_packages m q n : ~ In dot q -> (proper_package_of (m ++ [dot] ++ q) n <-> package_of m n).
Proof.
  clear. intros D. unfold proper_package_of, package_of. rewrite split_qualified, (py_split_no dot q D). split.
  - intros (a & b & Na & Nb & E & ->). destruct (exists_last Nb) as (b' & x & ->). rewrite app_assoc in E. apply app_inj_tail in E. destruct E as (E & _). exists a, b'. auto.
  - intros (a & b & Na & E & ->). exists a, (b ++ [q]). split; [assumption|]. split; [destruct b; discriminate|]. split; [now rewrite E, <- app_assoc|reflexivity].
Qed.
Lemma named m q : m <> !!"builtins" -> fully_qualified_name (YClass (Some m) q) = Ok (m ++ [dot] ++ q).
Proof. clear. intros N. cbn [ClassNames.fully_qualified_name]. unfold builtins. destruct (str_eqb m !!"builtins") eqn:E; [apply str_eqb_eq in E; congruence|reflexivity]. Qed.
Lemma given_context ctx d : given_or py ctx d = the_context ctx d.
Proof. clear. destruct ctx as [[|b r]|]; reflexivity. Qed.

(** C89: a parameter holding the fully qualified name of a class that is not nested evaluates to that class. *)
Theorem C89_evaluate : forall p name ty ctx vp sp default m q s, wf_params p -> importable m -> class_in m q -> ~ In dot q ->
  fully_qualified_name (YClass (Some m) q) = Ok s -> Stored p name (PStr s) -> dfind sp s = None -> unshadowed (the_context ctx (locals_of p name)) m -> ty (YClass (Some m) q) = true ->
  evaluate p name ty ctx vp sp default = Ok (YClass (Some m) q).
Proof.
  intros p name ty ctx vp sp default m q s W I C D Fq S1 Sp U T. rewrite (named m q (proj1 C)) in Fq. injection Fq as <-.
  apply (proj1 (C53_evaluate py YStr import_module eval_name locals_of eval_name_ext p name ty ctx vp sp default W)). left. split; [|assumption].
  eapply ev_string; [exact S1|]. unfold special. rewrite Sp, given_context. apply runs_qualified; auto. intros n. apply proper_packages. assumption.
Qed.
(** ... and so does object_from_parameters. *)
Theorem C89_object : forall p name ty ctx vp fp sv sf dv df m q s, wf_params p -> importable m -> class_in m q -> ~ In dot q ->
  fully_qualified_name (YClass (Some m) q) = Ok s -> Stored p name (PStr s) -> dfind sv s = None -> dfind sf s = None -> unshadowed (the_context ctx globals_ctx) m -> ty (YClass (Some m) q) = true ->
  object_from_parameters p name ty ctx vp fp sv sf dv df = Ok (YClass (Some m) q).
Proof.
  intros p name ty ctx vp fp sv sf dv df m q s W I C D Fq S1 Sv Sf U T. rewrite (named m q (proj1 C)) in Fq. injection Fq as <-.
  apply (C53_object_from_parameters py YStr import_module eval_name locals_of globals_ctx is_class from_parameters construct callable call none_obj eval_name_ext p name ty ctx vp fp sv sf dv df W). split; [|assumption].
  eapply b_string; [exact S1|assumption|assumption|]. rewrite given_context. apply runs_qualified; auto. intros n. apply proper_packages. assumption.
Qed.
(** In a namespace with the module in its import list, also nested classes are found. *)
Theorem C89_namespace : forall p name ns ty ctx vp sp default m q s, wf_params p -> importable m -> class_in m q ->
  fully_qualified_name (YClass (Some m) q) = Ok s -> Stored p name ns -> is_params ns = true -> Stored ns vp (PStr s) -> Stored ns !!"import" (PList [PStr m]) ->
  dfind sp s = None -> unshadowed (the_context ctx (locals_of p name)) m -> ty (YClass (Some m) q) = true ->
  evaluate p name ty ctx vp sp default = Ok (YClass (Some m) q).
Proof.
  intros p name ns ty ctx vp sp default m q s W I C Fq S1 Tn S2 S3 Sp U T. rewrite (named m q (proj1 C)) in Fq. injection Fq as <-.
  apply (proj1 (C53_evaluate py YStr import_module eval_name locals_of eval_name_ext p name ty ctx vp sp default W)). left. split; [|assumption].
  eapply ev_namespace; [exact S1|assumption|exact S2|right; exact (S3 : Stored ns !!"import" (PList (map PStr [m])))|]. unfold special. rewrite Sp, given_context. apply runs_qualified; auto.
  intros n. split; [intros (m' & [<-|[]] & P); assumption|]. intros P. exists m. split; [now left|assumption].
Qed.
(** The name of a built-in class evaluates to it, unless the context binds that name. *)
Theorem C89_builtin : forall p name ty ctx vp sp default q s, wf_params p -> is_name q = true -> builtin q = Some (YClass (Some !!"builtins") q) ->
  fully_qualified_name (YClass (Some !!"builtins") q) = Ok s -> Stored p name (PStr s) -> dfind sp s = None -> dfind (the_context ctx (locals_of p name)) q = None -> ty (YClass (Some !!"builtins") q) = true ->
  evaluate p name ty ctx vp sp default = Ok (YClass (Some !!"builtins") q).
Proof.
  intros p name ty ctx vp sp default q s W N B Fq S1 Sp U T. cbn [ClassNames.fully_qualified_name] in Fq. change (str_eqb !!"builtins" builtins) with true in Fq. cbv iota in Fq. injection Fq as <-.
  apply (proj1 (C53_evaluate py YStr import_module eval_name locals_of eval_name_ext p name ty ctx vp sp default W)). left. split; [|assumption].
  eapply ev_string; [exact S1|]. unfold special. rewrite Sp, given_context. exists (the_context ctx (locals_of p name)). split.
  - intros n. destruct (dfind (the_context ctx (locals_of p name)) n) eqn:E; [reflexivity|]. split; [|auto]. intros (a & b & Na & Nb & Es & _). exfalso. rewrite (py_split_no dot q (name_dotless q N)) in Es. destruct a as [|x [|y a]]; [congruence| |discriminate]. destruct b; [congruence|discriminate].
  - unfold ClassNames.eval_name. rewrite (py_split_no dot q (name_dotless q N)). cbn [forallb]. rewrite N. cbn [andb]. rewrite U, B. reflexivity.
Qed.
(** The name of a module, with itself in the import list, evaluates to it. *)
Theorem C89_module : forall p name ns ty ctx vp sp default m s, wf_params p -> importable m ->
  fully_qualified_name (YModule m) = Ok s -> Stored p name ns -> is_params ns = true -> Stored ns vp (PStr s) -> Stored ns !!"import" (PList [PStr s]) ->
  dfind sp s = None -> unshadowed (the_context ctx (locals_of p name)) m -> ty (YModule m) = true ->
  evaluate p name ty ctx vp sp default = Ok (YModule m).
Proof.
  intros p name ns ty ctx vp sp default m s W I Fq S1 Tn S2 S3 Sp U T. cbn [ClassNames.fully_qualified_name] in Fq. injection Fq as <-.
  apply (proj1 (C53_evaluate py YStr import_module eval_name locals_of eval_name_ext p name ty ctx vp sp default W)). left. split; [|assumption].
  eapply ev_namespace; [exact S1|assumption|exact S2|right; exact (S3 : Stored ns !!"import" (PList (map PStr [m])))|]. unfold special. rewrite Sp, given_context.
  assert (Hn : forall n, (exists m', In m' [m] /\ package_of m' n) <-> package_of m n) by (intros n; split; [intros (m' & [<-|[]] & P); assumption|intros P; exists m; split; [now left|assumption]]).
  set (c := the_context ctx (locals_of p name)) in *. assert (I' := I). destruct I as (Nm & Im & _). pose proof (import_names py import_module (dotted_prefixes (py_split dot m)) c) as K.
  destruct (foldM (import_one py import_module) (dotted_prefixes (py_split dot m)) c) as [c'|e].
  - exists c'. split; [apply (imported_ext py import_module (fun n => In n (dotted_prefixes (py_split dot m)))); [|exact K]; intros n; rewrite package_of_in; symmetry; apply Hn|].
    unfold ClassNames.eval_name. destruct (leads_module m I') as (n & r & E & P & Lm). rewrite E in Nm |- *. rewrite Nm.
    assert (Dn : dfind c' n = Some (YModule n)).
    { specialize (K n). destruct (U n P) as [D|D]; rewrite D in K; [|assumption]. destruct K as (K & _). destruct (K (proj2 (package_of_in m n) P)) as (o & E1 & E2). rewrite (Im n P) in E1. now injection E1 as <-. }
    rewrite Dn. now apply leads_attributes.
  - destruct K as (n & e' & J & _ & E). apply package_of_in in J. rewrite (Im n J) in E. discriminate.
Qed.
(** The name of a class without a module is found only in the context (or among the built-in names). *)
Theorem C89_no_module : forall p name ty ctx vp sp default q s, wf_params p -> is_name q = true ->
  fully_qualified_name (YClass None q) = Ok s -> Stored p name (PStr s) -> dfind sp s = None -> dfind (the_context ctx (locals_of p name)) q = Some (YClass None q) -> ty (YClass None q) = true ->
  evaluate p name ty ctx vp sp default = Ok (YClass None q).
Proof.
  intros p name ty ctx vp sp default q s W N Fq S1 Sp U T. cbn [ClassNames.fully_qualified_name] in Fq. injection Fq as <-.
  apply (proj1 (C53_evaluate py YStr import_module eval_name locals_of eval_name_ext p name ty ctx vp sp default W)). left. split; [|assumption].
  eapply ev_string; [exact S1|]. unfold special. rewrite Sp, given_context. exists (the_context ctx (locals_of p name)). split.
  - intros n. destruct (dfind (the_context ctx (locals_of p name)) n) eqn:E; [reflexivity|]. split; [|auto]. intros (a & b & Na & Nb & Es & _). exfalso. rewrite (py_split_no dot q (name_dotless q N)) in Es. destruct a as [|x [|y a]]; [congruence| |discriminate]. destruct b; [congruence|discriminate].
  - unfold ClassNames.eval_name. rewrite (py_split_no dot q (name_dotless q N)). cbn [forallb]. rewrite N. cbn [andb]. rewrite U. reflexivity.
Qed.
(** Classes that are not nested and have a module have different names. *)
Theorem C89_distinct : forall m q m' q' s, ~ In dot q -> ~ In dot q' -> fully_qualified_name (YClass (Some m) q) = Ok s -> fully_qualified_name (YClass (Some m') q') = Ok s -> m = m' /\ q = q'.
Proof.
  clear. assert (B : forall m q m' q', ~ In dot q -> m <> !!"builtins" -> q = m' ++ [dot] ++ q' -> False) by (intros m q m' q' D _ ->; apply D; apply in_or_app; right; now left).
  intros m q m' q' s D D' E E'. cbn [ClassNames.fully_qualified_name] in E, E'. unfold builtins in *. destruct (str_eqb m !!"builtins") eqn:M, (str_eqb m' !!"builtins") eqn:M'.
  - apply str_eqb_eq in M, M'. split; congruence.
  - exfalso. injection E as <-. injection E' as E'. apply D. rewrite <- E'. apply in_or_app. right. now left.
  - exfalso. injection E' as <-. injection E as E. apply D'. rewrite <- E. apply in_or_app. right. now left.
  - assert (Es : m ++ [dot] ++ q = m' ++ [dot] ++ q') by congruence. apply (f_equal (py_split dot)) in Es. rewrite !split_qualified, (py_split_no dot q D), (py_split_no dot q' D') in Es. apply app_inj_tail in Es. destruct Es as (Es & ->). split; [|reflexivity]. rewrite <- (py_split_join dot m), <- (py_split_join dot m'). now rewrite Es.
Qed.
(** Documented: "If the parameter is a string, it is evaluated with the module prefix of the name imported".  Refuted for nested classes: the class around is taken for
    a module, too. *)
Theorem C89_nested_refuted : forall p name ty ctx vp sp m outer inner s e, wf_params p -> m <> !!"builtins" -> ~ In dot inner -> ~ In dot outer ->
  fully_qualified_name (YClass (Some m) (outer ++ [dot] ++ inner)) = Ok s -> Stored p name (PStr s) ->
  import_module (m ++ [dot] ++ outer) = Raise e -> dfind (the_context ctx (locals_of p name)) (m ++ [dot] ++ outer) = None ->
  evaluate p name ty ctx vp sp None = Raise ParameterError.
Proof.
  intros p name ty ctx vp sp m outer inner s e W N Di Do Fq S1 Im Dn. rewrite (named m _ N) in Fq. injection Fq as <-.
  destruct (C53_evaluate py YStr import_module eval_name locals_of eval_name_ext p name ty ctx vp sp None W) as (E1 & E2).
  destruct (evaluate p name ty ctx vp sp None) as [o|e'] eqn:E; [|f_equal; now apply E2]. exfalso. destruct (proj1 (E1 o) eq_refl) as [(Ev & _)|(_ & Bad)]; [|discriminate].
  assert (U : forall v, Stored p name v -> v = PStr (m ++ [dot] ++ outer ++ [dot] ++ inner)) by (intros v Sv; exact (stored_unique _ _ _ _ (proj1 W) Sv S1)).
  destruct Ev as [ns code mods o Sn Tn _ _ _|code o Sc R]; [rewrite (U _ Sn) in Tn; discriminate|]. assert (Ec := U _ Sc). injection Ec as ->.
  destruct R as (c' & Imp & _). specialize (Imp (m ++ [dot] ++ outer)). rewrite given_context, Dn in Imp. destruct Imp as (Imp & _). destruct Imp as (o' & Eo & _); [|congruence].
  exists (py_split dot m ++ [outer]), [inner]. split; [destruct (py_split dot m); discriminate|]. split; [discriminate|]. split.
  - refine (eq_trans (split_qualified m (outer ++ [dot] ++ inner)) _). rewrite (split_qualified outer inner), (py_split_no dot outer Do), (py_split_no dot inner Di). now rewrite <- app_assoc.
  - unfold dotted. symmetry. rewrite <- (py_split_join dot (m ++ [dot] ++ outer)), split_qualified, (py_split_no dot outer Do). reflexivity.
Qed.
(** Without a context, names of local variables of evaluate itself (name, context, default, ...) hide packages of the same names. *)
Theorem C89_hidden_package_refuted : forall p name ty vp sp m q first second rest s o, wf_params p -> importable m -> class_in m q -> ~ In dot q ->
  fully_qualified_name (YClass (Some m) q) = Ok s -> Stored p name (PStr s) -> dfind sp s = None -> py_split dot s = first :: second :: rest ->
  dfind (locals_of p name) first = Some o -> attr o second = None ->
  evaluate p name ty None vp sp None = Raise ParameterError.
Proof.
  intros p name ty vp sp m q first second rest s o W I C D Fq S1 Sp Es L A. rewrite (named m _ (proj1 C)) in Fq. injection Fq as <-.
  destruct (C53_evaluate py YStr import_module eval_name locals_of eval_name_ext p name ty None vp sp None W) as (E1 & E2).
  destruct (evaluate p name ty None vp sp None) as [o1|e'] eqn:E; [|f_equal; now apply E2]. exfalso. destruct (proj1 (E1 o1) eq_refl) as [(Ev & _)|(_ & Bad)]; [|discriminate].
  assert (U : forall v, Stored p name v -> v = PStr (m ++ [dot] ++ q)) by (intros v Sv; exact (stored_unique _ _ _ _ (proj1 W) Sv S1)).
  destruct Ev as [ns code mods o2 Sn Tn _ _ _|code o2 Sc R]; [rewrite (U _ Sn) in Tn; discriminate|]. assert (Ec := U _ Sc). injection Ec as ->.
  destruct R as (c' & Imp & Ev). unfold special in Ev. rewrite Sp in Ev. specialize (Imp first). cbn [given_or] in Imp. rewrite L in Imp. unfold ClassNames.eval_name in Ev.
  assert (Al : forallb is_name (py_split dot (m ++ [dot] ++ q)) = true) by (rewrite split_qualified, forallb_app; apply andb_true_intro; split; [apply I|apply C]).
  assert (Al' : forallb is_name (first :: second :: rest) = true) by (rewrite <- Es; exact Al). rewrite Es in Ev. rewrite Al', Imp in Ev. cbn [ClassNames.attributes] in Ev. rewrite A in Ev. discriminate.
Qed.
End P.

(** ** A concrete case: a package "pkg" with a module "pkg.mod" with a class "Outer" with a class "Inner"; a built-in class; and a package "name". *)
Definition attr89 (o : py unit) (n : str) : option (py unit) :=
  match o with
  | YModule m => if str_eqb m !!"pkg" && str_eqb n !!"mod" then Some (YModule !!"pkg.mod")
                 else if (str_eqb m !!"pkg.mod" || str_eqb m !!"name") && str_eqb n !!"Outer" then Some (YClass (Some m) !!"Outer") else None
  | YClass (Some m) q => if str_eqb q !!"Outer" && str_eqb n !!"Inner" then Some (YClass (Some m) !!"Outer.Inner") else None
  | _ => None
  end.
Definition import89 (n : str) : res (py unit) := if existsb (str_eqb n) [!!"pkg"; !!"pkg.mod"; !!"name"] then Ok (YModule n) else Raise AnyError.
Definition builtin89 (n : str) : option (py unit) := if str_eqb n !!"int" then Some (YClass (Some !!"builtins") !!"int") else None.
Definition cfg89 : pv := PParams [] [(!!"top", PStr !!"pkg.mod.Outer"); (!!"nested", PStr !!"pkg.mod.Outer.Inner"); (!!"builtin", PStr !!"int"); (!!"hidden", PStr !!"name.Outer");
  (!!"ns", PParams [!!"ns"] [(!!"value", PStr !!"pkg.mod.Outer.Inner"); (!!"import", PList [PStr !!"pkg.mod"])]);
  (!!"module", PParams [!!"module"] [(!!"value", PStr !!"pkg.mod"); (!!"import", PList [PStr !!"pkg.mod"])])].
Notation eval89 name := (evaluate (py unit) YStr import89 (eval_name unit attr89 builtin89 (fun _ _ => Raise AnyError)) (fun _ _ => [(!!"name", YStr name)]) cfg89 name (fun _ => true) None !!"value" [] None).
Example C89_witness :
  eval89 !!"top" = Ok (YClass (Some !!"pkg.mod") !!"Outer") /\ eval89 !!"nested" = Raise ParameterError /\ eval89 !!"builtin" = Ok (YClass (Some !!"builtins") !!"int") /\
  eval89 !!"hidden" = Raise ParameterError /\ eval89 !!"ns" = Ok (YClass (Some !!"pkg.mod") !!"Outer.Inner") /\ eval89 !!"module" = Ok (YModule !!"pkg.mod") /\
  fully_qualified_name unit (YClass (Some !!"a.b") !!"C") = fully_qualified_name unit (YClass (Some !!"a") !!"b.C").
Proof. repeat split; vm_compute; reflexivity. Qed.
Example C89_hypotheses : wf_params cfg89 /\ importable unit attr89 import89 !!"pkg.mod" /\ class_in unit attr89 !!"pkg.mod" !!"Outer" /\ class_in unit attr89 !!"pkg.mod" !!"Outer.Inner" /\
  unshadowed unit [(!!"name", YStr !!"top")] !!"pkg.mod" /\ importable unit attr89 import89 !!"name" /\ class_in unit attr89 !!"name" !!"Outer" /\
  import89 (!!"pkg.mod" ++ [dot] ++ !!"Outer") = Raise AnyError.
Proof.
  assert (P : forall n, package_of !!"pkg.mod" n -> n = !!"pkg" \/ n = !!"pkg.mod").
  { intros n (a & b & Na & E & ->). destruct a as [|x a]; [congruence|]. vm_compute in E. injection E as <- E. destruct a as [|y a]; [left; reflexivity|]. injection E as <- E. destruct a; [right; reflexivity|discriminate]. }
  assert (P2 : forall n, package_of !!"name" n -> n = !!"name").
  { intros n (a & b & Na & E & ->). destruct a as [|x a]; [congruence|]. vm_compute in E. injection E as <- E. destruct a as [|y a]; [reflexivity|discriminate]. }
  split; [split; [|reflexivity]; simpl; repeat split; repeat constructor; simpl; unfold dotless; simpl; intuition discriminate|].
  split; [split; [reflexivity|]; split; [intros n H; destruct (P n H) as [->| ->]; reflexivity|]|].
  { intros a x b Na E. destruct a as [|y a]; [congruence|]. vm_compute in E. injection E as <- E. destruct a as [|z a]; [injection E as <- _; reflexivity|]. injection E as _ E. destruct a; discriminate. }
  split; [split; [discriminate|]; split; [reflexivity|]; apply leads_attributes; reflexivity|]. split; [split; [discriminate|]; split; [reflexivity|]; apply leads_attributes; reflexivity|].
  split; [intros n H; destruct (P n H) as [->| ->]; left; reflexivity|]. split; [split; [reflexivity|]; split; [intros n H; now rewrite (P2 n H)|]|].
  { intros a x b Na E. destruct a as [|y a]; [congruence|]. vm_compute in E. injection E as <- E. destruct a; discriminate. }
  split; [split; [discriminate|]; split; [reflexivity|]; apply leads_attributes; reflexivity|]. reflexivity.
Qed.
Print Assumptions C89_evaluate.
Print Assumptions C89_object.
Print Assumptions C89_namespace.
Print Assumptions C89_builtin.
Print Assumptions C89_module.
Print Assumptions C89_no_module.
Print Assumptions C89_distinct.
Print Assumptions C89_nested_refuted.
Print Assumptions C89_hidden_package_refuted.
