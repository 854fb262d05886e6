(** * attrutils.py (C96): the objects of classes declared with its functions *)
From Verif Require Import Prelude PyStr Preconditions AttrUtils.

Arguments NoDefault {V K}. Arguments Value {V K} _. Arguments Factory {V K} _.
Arguments TClass {C} _. Arguments TTuple {C} _. Arguments TOther {C}.

(** ** Specification: constructor arguments *)
Section Binding.
Variable V : Type.
(** [given] is what a call with these positional and keyword arguments gives for the parameters [ps]: positional ones from the left, then
    keywords, nothing twice and nothing left over. *)
Definition arguments (ps : list str) (pos : list V) (kws : list (str * V)) (given : str -> option V) : Prop :=
  (length pos <= length ps)%nat /\ (forall k, In k (map fst kws) -> In k (skipn (length pos) ps)) /\
  forall i p, nth_error ps i = Some p -> forall v, given p = Some v <-> nth_error pos i = Some v \/ (length pos <= i)%nat /\ In (p, v) kws.
Lemma kget_in (kws : list (str * V)) p v : NoDup (map fst kws) -> (kget V kws p = Some v <-> In (p, v) kws).
Proof using.
  induction kws as [|(k, w) r IH]; simpl; intros ND; [split; [discriminate|intros []]|]. apply NoDup_cons_iff in ND. destruct ND as (NI & ND). destruct (str_eqb k p) eqn:E.
  - apply str_eqb_eq in E. subst k. split; [intros [= ->]; now left|]. intros [X|X]; [now injection X as ->|]. exfalso. apply NI. now apply (in_map fst) in X.
  - rewrite (IH ND). split; [now right|]. intros [X|X]; [|exact X]. injection X as -> ->. now rewrite str_eqb_refl in E.
Qed.
Lemma kget_none (kws : list (str * V)) p : kget V kws p = None <-> ~ In p (map fst kws).
Proof using.
  induction kws as [|(k, w) r IH]; simpl; [split; auto|]. destruct (str_eqb k p) eqn:E.
  - apply str_eqb_eq in E. split; [discriminate|intros X; exfalso; apply X; now left].
  - rewrite IH. split; [intros H [->|X]; [now rewrite str_eqb_refl in E|auto]|intros H X; apply H; now right].
Qed.
Lemma kdel_in (kws : list (str * V)) p q v : In (q, v) (kdel V kws p) <-> In (q, v) kws /\ q <> p.
Proof using.
  unfold kdel. rewrite filter_In. simpl. split; intros (A & B); (split; [exact A|]).
  - intros ->. now rewrite str_eqb_refl in B.
  - destruct (str_eqb q p) eqn:E; [apply str_eqb_eq in E; contradiction|reflexivity].
Qed.
Lemma kdel_keys (kws : list (str * V)) p q : In q (map fst (kdel V kws p)) <-> In q (map fst kws) /\ q <> p.
Proof using.
  rewrite !in_map_iff. split.
  - intros ((q', v) & <- & J). apply kdel_in in J. destruct J as (J & X). split; [exists (q', v); auto|exact X].
  - intros (((q', v) & <- & J) & X). exists (q', v). split; [reflexivity|]. now apply kdel_in.
Qed.
Lemma kdel_nodup (kws : list (str * V)) p : NoDup (map fst kws) -> NoDup (map fst (kdel V kws p)).
Proof using.
  induction kws as [|(k, w) r IH]; simpl; intros ND; [constructor|]. apply NoDup_cons_iff in ND. destruct ND as (NI & ND). destruct (str_eqb k p); cbn [negb]; [auto|]. simpl. constructor; [|auto].
  intros X. apply NI. now apply (kdel_keys r p) in X.
Qed.
(** Binding succeeds exactly for fitting arguments, and what it binds is what is given. *)
Lemma bind_spec ps pos kws : NoDup ps -> NoDup (map fst kws) ->
  (forall l, bind_args V ps pos kws = Ok l -> exists given, arguments ps pos kws given /\ l = map given ps) /\
  (forall given, arguments ps pos kws given -> bind_args V ps pos kws = Ok (map given ps)) /\ (forall e, bind_args V ps pos kws = Raise e -> e = TypeError).
Proof using.
  intros NP NK. revert pos kws NK. induction ps as [|p r IH]; intros pos kws NK; cbn [bind_args].
  { split; [|split].
    - destruct pos, kws; intros l; try discriminate. intros [= <-]. exists (fun _ => None). split; [|reflexivity]. split; [auto|]. split; [intros k []|]. intros [] p X; discriminate.
    - intros given (L & KS & _). destruct pos; [|simpl in L; lia]. destruct kws as [|kv kws]; [reflexivity|]. destruct (KS (fst kv)). now left.
    - destruct pos, kws; intros e; congruence. }
  apply NoDup_cons_iff in NP. destruct NP as (NI & NP). specialize (IH NP). destruct pos as [|v pos].
  - destruct (IH [] (kdel V kws p) (kdel_nodup kws p NK)) as (I1 & I2 & I3). split; [|split].
    + intros l. destruct (bind_args V r [] (kdel V kws p)) as [l'|] eqn:B; [|discriminate]. cbn [bind]. intros [= <-]. destruct (I1 l' eq_refl) as (given & (_ & KS & GV) & ->).
      exists (fun q => if str_eqb q p then kget V kws p else given q). split; [|simpl; rewrite str_eqb_refl; f_equal; apply map_ext_in; intros q J; destruct (str_eqb q p) eqn:E; [apply str_eqb_eq in E; subst q; contradiction|reflexivity]].
      split; [simpl; lia|]. split.
      { intros k J. simpl. destruct (list_eq_dec N.eq_dec p k) as [->|NE]; [now left|right]. apply (KS k). apply kdel_keys. auto. }
      intros i q Q w. simpl. destruct i as [|i]; simpl in Q.
      * injection Q as <-. rewrite str_eqb_refl, (kget_in kws p w NK). split; [intros H; right; split; [lia|exact H]|intros [X|(_ & X)]; [discriminate|exact X]].
      * assert (q <> p) as NE by (intros ->; apply NI; eapply nth_error_In; eassumption). destruct (str_eqb q p) eqn:E; [apply str_eqb_eq in E; contradiction|]. rewrite (GV i q Q w). rewrite kdel_in. simpl.
        destruct i; simpl; (split; [intros [X|(_ & X & _)]; [discriminate|right; split; [lia|exact X]]|intros [X|(_ & X)]; [discriminate|right; split; [lia|auto]]]).
    + intros given (L & KS & GV). rewrite (I2 given).
      * cbn [bind map]. f_equal. f_equal. specialize (GV 0%nat p eq_refl). destruct (kget V kws p) as [w|] eqn:KG.
        -- symmetry. apply GV. right. split; [simpl; lia|]. now apply kget_in.
        -- destruct (given p) as [w|] eqn:GP; [|reflexivity]. destruct (proj1 (GV w) eq_refl) as [X|(_ & X)]; [discriminate|]. apply kget_in in X; [|exact NK]. congruence.
      * split; [simpl; lia|]. split.
        -- intros k J. apply kdel_keys in J. destruct J as (J & NE). specialize (KS k J). simpl in KS. simpl. destruct KS as [->|KS]; [now destruct NE|exact KS].
        -- intros i q Q w. assert (q <> p) as NE by (intros ->; apply NI; eapply nth_error_In; eassumption). rewrite (GV (S i) q Q w), kdel_in. destruct i; simpl; (split; [intros [X|(_ & X)]; [discriminate|right; split; [lia|auto]]|intros [X|(_ & X & _)]; [discriminate|right; split; [lia|auto]]]).
    + intros e. destruct (bind_args V r [] (kdel V kws p)) as [l'|] eqn:B; [discriminate|]. cbn [bind]. intros [= <-]. now apply I3.
  - destruct (IH pos kws NK) as (I1 & I2 & I3). split; [|split].
    + intros l. destruct (kget V kws p) eqn:KG; [discriminate|]. destruct (bind_args V r pos kws) as [l'|] eqn:B; [|discriminate]. cbn [bind]. intros [= <-]. destruct (I1 l' eq_refl) as (given & (L & KS & GV) & ->).
      exists (fun q => if str_eqb q p then Some v else given q). split; [|simpl; rewrite str_eqb_refl; f_equal; apply map_ext_in; intros q J; destruct (str_eqb q p) eqn:E; [apply str_eqb_eq in E; subst q; contradiction|reflexivity]].
      split; [simpl; lia|]. split; [exact KS|]. intros i q Q w. destruct i as [|i]; simpl in Q |- *.
      * injection Q as <-. rewrite str_eqb_refl. split; [auto|]. intros [X|(X & _)]; [exact X|lia].
      * assert (q <> p) as NE by (intros ->; apply NI; eapply nth_error_In; eassumption). destruct (str_eqb q p) eqn:E; [apply str_eqb_eq in E; contradiction|]. rewrite (GV i q Q w). split; (intros [X|(X & Y)]; [now left|right; split; [lia|exact Y]]).
    + intros given (L & KS & GV). assert (kget V kws p = None) as ->.
      { apply kget_none. intros J. apply KS in J. simpl in J. apply NI. rewrite <- (firstn_skipn (length pos) r). apply in_or_app. now right. }
      rewrite (I2 given).
      * cbn [bind map]. f_equal. f_equal. symmetry. apply (GV 0%nat p eq_refl v). now left.
      * split; [simpl in L; lia|]. split; [exact KS|]. intros i q Q w. rewrite (GV (S i) q Q w). simpl. split; (intros [X|(X & Y)]; [now left|right; split; [lia|exact Y]]).
    + intros e. destruct (kget V kws p); [congruence|]. destruct (bind_args V r pos kws) as [l'|] eqn:B; [discriminate|]. cbn [bind]. intros [= <-]. now apply I3.
Qed.
End Binding.
Arguments arguments {V} _ _ _ _.

Section Props.
Variables V C K U : Type.
Variable none : V.
Variable is_none : V -> bool.
Variable none_type : C.
Variable is_instance : V -> C -> bool.
Variable is_immutable : C -> bool.
Variable of_ : C -> V -> res V.
Variable empty_ : C -> res V.
Variable builder : C -> K.
Variable user_convert : U -> V -> res V.
Variable user_validate : U -> V -> res unit.
Variable run : K -> nat -> res V.
Variable format : str -> res str.
Variable type_str : tyarg C -> str.
(** None is the only None, and the only instance of its class; an immutable collection is kept by its class's [of]. *)
Hypothesis none_spec : forall v, is_none v = true <-> v = none.
Hypothesis none_type_spec : forall v, is_instance v none_type = true <-> v = none.
Hypothesis of_empty : forall c e, is_immutable c = true -> empty_ c = Ok e -> of_ c e = Ok e.

Notation attribute := (attribute V C K U).
Notation isinstance := (isinstance V C is_instance).
Notation construct := (construct V C K U is_none is_instance of_ empty_ user_convert user_validate run).
Notation history := (history V C K U is_none is_instance of_ empty_ user_convert user_validate run).
Notation fill := (fill V C K U is_none of_ empty_ user_convert run).
Notation validate_all := (validate_all V C K U is_instance user_validate).
Notation attrib_instance_of := (attrib_instance_of V C K U).
Notation attrib_opt_instance_of := (attrib_opt_instance_of V C K U none_type).
Notation attrib_factory := (attrib_factory V C K U).
Notation attrib_immutable := (attrib_immutable V C K U is_immutable format type_str).
Notation attrib_opt_immutable := (attrib_opt_immutable V C K U is_immutable empty_ format type_str).
Notation attrib_private_immutable_builder := (attrib_private_immutable_builder V C K U is_immutable builder format type_str).
Notation no_extra := (no_extra V C K U).
Notation no_kwargs := (no_kwargs V C K U).
Notation extra := (extra V C K U).

(** ** Specification *)
(** Declarations: by which function, with which type, default or factory *)
Inductive decl :=
| Instance (t : tyarg C)                            (* attrib_instance_of(t) *)
| InstanceDefault (t : tyarg C) (d : V) (keyword : bool)  (* attrib_instance_of(t, d) or attrib_instance_of(t, default=d) *)
| OptInstance (t : tyarg C) (d : V)                 (* attrib_opt_instance_of(t, default=d); d is None if not given *)
| FromFactory (k : K)                               (* attrib_factory(k) *)
| Immutable (c : C)                                 (* attrib_immutable(c) *)
| OptImmutable (c : C)                              (* attrib_opt_immutable(c) *)
| PrivateBuilder (c : C).                           (* attrib_private_immutable_builder(c) *)
Definition declare (d : decl) : res attribute :=
  match d with
  | Instance t => attrib_instance_of t no_extra
  | InstanceDefault t d false => attrib_instance_of t (Build_extra V C K U (Some (Value d)) None no_kwargs)
  | InstanceDefault t d true => attrib_instance_of t (Build_extra V C K U None None (Build_kwargs V C K U (Some (Value d)) None None None None))
  | OptInstance t d => attrib_opt_instance_of t d no_extra
  | FromFactory k => attrib_factory k no_extra
  | Immutable c => attrib_immutable (TClass c) no_extra
  | OptImmutable c => attrib_opt_immutable (TClass c) no_extra
  | PrivateBuilder c => attrib_private_immutable_builder (TClass c) no_extra
  end.
(** A type argument is a class or a tuple of type arguments; a value is an instance of one of the classes. *)
Inductive proper : tyarg C -> Prop :=
| proper_class c : proper (TClass c)
| proper_tuple l : (forall t, In t l -> proper t) -> proper (TTuple l).
Inductive inst (v : V) : tyarg C -> Prop :=
| inst_class c : is_instance v c = true -> inst v (TClass c)
| inst_tuple t l : In t l -> inst v t -> inst v (TTuple l).
(** Well-formed declarations *)
Definition good (d : decl) : Prop :=
  match d with
  | Instance t | InstanceDefault t _ _ | OptInstance t _ => proper t
  | FromFactory _ => True
  | Immutable c | PrivateBuilder c => is_immutable c = true
  | OptImmutable c => is_immutable c = true /\ exists e, empty_ c = Ok e
  end.
(** The value [v] stored for a declaration when the argument is [g] (None: not given); [n], [n']: the number of factory calls before and after *)
Definition stored (d : decl) (g : option V) (n : nat) (v : V) (n' : nat) : Prop :=
  match d with
  | Instance t => g = Some v /\ inst v t /\ n' = n
  | InstanceDefault t e _ => (g = Some v \/ g = None /\ v = e) /\ inst v t /\ n' = n
  | OptInstance t e => (g = Some v \/ g = None /\ v = e) /\ (v = none \/ inst v t) /\ n' = n
  | FromFactory k => (g = Some v /\ n' = n) \/ (g = None /\ run k n = Ok v /\ n' = S n)
  | Immutable c => (exists w, g = Some w /\ of_ c w = Ok v) /\ n' = n
  | OptImmutable c => ((g = None \/ g = Some none) /\ empty_ c = Ok v \/ exists w, g = Some w /\ w <> none /\ of_ c w = Ok v) /\ n' = n
  | PrivateBuilder c => run (builder c) n = Ok v /\ n' = S n
  end.
Inductive object_of (given : str -> option V) : list (str * decl) -> nat -> list (str * V) -> nat -> Prop :=
| obj_nil n : object_of given [] n [] n
| obj_cons name d r n v n1 obj n2 : stored d (given (param_name name)) n v n1 -> object_of given r n1 obj n2 ->
    object_of given ((name, d) :: r) n ((name, v) :: obj) n2.
(** The constructor's arguments: all attributes but the private builders, under their names without leading underscores *)
Definition is_arg (d : decl) : bool := match d with PrivateBuilder _ => false | _ => true end.
Definition arg_names (ds : list (str * decl)) : list str := map (fun d => param_name (fst d)) (filter (fun d => is_arg (snd d)) ds).
(** The class is declared without error. *)
Definition class_of (ds : list (str * decl)) (fields : list (str * attribute)) : Prop :=
  Forall2 (fun d f => fst d = fst f /\ declare (snd d) = Ok (snd f)) ds fields /\ define_class V C K U fields = Ok fields.

(** ** Proofs *)
Theorem C96_argument_names : forall name, exists k, name = repeat 95%N k ++ param_name name /\ forall r, param_name name <> 95%N :: r.
Proof using.
  induction name as [|c r (k & E & H)]; [exists 0%nat; split; [reflexivity|discriminate]|]. simpl. destruct (c =? 95)%N eqn:X.
  - apply N.eqb_eq in X. subst c. exists (S k). split; [simpl; f_equal; exact E|exact H].
  - exists 0%nat. split; [reflexivity|]. intros r' F. injection F as -> _. discriminate.
Qed.
Lemma isinstance_spec v t : proper t -> exists b, isinstance v t = Ok b /\ (b = true <-> inst v t).
Proof using.
  intros P. induction P as [c|l P IH]; simpl.
  - exists (is_instance v c). split; [reflexivity|]. split; [now constructor|]. intros X. now inversion X.
  - induction l as [|t r IHr].
    + exists false. split; [reflexivity|]. split; [discriminate|]. intros X. inversion X as [|t' l' J]. inversion J.
    + destruct (IH t (or_introl eq_refl)) as (b & E & B). rewrite E. cbn [bind]. destruct b.
      * exists true. split; [reflexivity|]. split; [|reflexivity]. intros _. apply inst_tuple with t; [now left|now apply B].
      * destruct IHr as (b' & E' & B'); [intros; apply P; now right|intros; apply IH; now right|]. exists b'. split; [exact E'|]. rewrite B'. split.
        -- intros X. inversion X as [|t' l' J Y]. apply inst_tuple with t'; [now right|exact Y].
        -- intros X. inversion X as [|t' l' J Y]. subst. destruct J as [->|J]; [apply B in Y; discriminate|]. now apply inst_tuple with t'.
Qed.

Notation convert := (convert V C U is_none of_ empty_ user_convert).
Notation validate := (validate V C U is_instance user_validate).
Notation mandatory := (mandatory V C K U).
Notation init_fields := (init_fields V C K U).
Notation params := (params V C K U).
Notation lacks := (lacks V C K U).
Definition raw (a : attribute) (g : option V) (n : nat) : res V * nat :=
  match g, a_default _ _ _ _ a with
  | Some v, _ => (Ok v, n)
  | None, Value d => (Ok d, n)
  | None, Factory k => (run k n, S n)
  | None, NoDefault => (Raise TypeError, n)
  end.
Definition step (a : attribute) (g : option V) (n : nat) : res V * nat := let (r, n1) := raw a g n in (let* v := r in convert (a_converter _ _ _ _ a) v, n1).
Lemma fill_cons name (a : attribute) r g gs n : (mandatory a = true -> g <> None) -> (a_init _ _ _ _ a = false -> g = None) ->
  fill ((name, a) :: r) (if a_init _ _ _ _ a then g :: gs else gs) n =
  let (rv, n1) := step a g n in match rv with Raise e => (Raise e, n1) | Ok v => let (l, n2) := fill r gs n1 in (let* l := l in Ok ((name, v) :: l), n2) end.
Proof using.
  intros M I. cbn [AttrUtils.fill]. unfold step, raw.
  assert (forall X, (if a_init V C K U a then match (if a_init V C K U a then g :: gs else gs) with g0 :: gs0 => (g0, gs0) | [] => (None, []) end else (None, if a_init V C K U a then g :: gs else gs)) = X -> X = (g, gs)) as H.
  { intros X <-. destruct (a_init V C K U a) eqn:E; [reflexivity|]. now rewrite I. }
  rewrite (H _ eq_refl). destruct g as [v|]; [reflexivity|]. unfold AttrUtils.mandatory in M. destruct (a_default V C K U a); try reflexivity. now destruct M.
Qed.
Lemma check_ok c : check_immutable_collection C is_immutable format type_str (TClass c) = Ok c <-> is_immutable c = true.
Proof using.
  unfold check_immutable_collection. destruct (C73_arg format (is_immutable c) (Some (!!"Type " ++ type_str (TClass c) ++ !!" is not an immutable collection"))) as (A & _).
  destruct (check_arg _ _ _) as [[]|e]; cbn [bind]; split; auto; intros H; [now apply A|discriminate|apply A in H; discriminate].
Qed.
(** What a well-formed declaration gives *)
Lemma declared d a : good d -> declare d = Ok a ->
  a_init _ _ _ _ a = is_arg d /\ mandatory a = match d with Instance _ | Immutable _ => true | _ => false end /\
  forall g n v n1, (is_arg d = false -> g = None) -> (mandatory a = true -> g <> None) -> (stored d g n v n1 <-> step a g n = (Ok v, n1) /\ validate (a_validator _ _ _ _ a) v = Ok tt).
Proof using none_spec none_type_spec of_empty.
  intros G D.
  assert (forall c, is_immutable c = true -> check_immutable_collection C is_immutable format type_str (TClass c) = Ok c) as CH by (intros; now apply check_ok).
  assert (forall t v, proper t -> (let* b := isinstance v t in if b then Ok tt else Raise TypeError) = Ok tt <-> inst v t) as IV.
  { intros t v P. destruct (isinstance_spec v t P) as (b & E & B). rewrite E. cbn [bind]. rewrite <- B. destruct b; split; auto; discriminate. }
  destruct d as [t|t d []|t d|k|c|c|c]; cbn [good] in G; unfold declare, AttrUtils.attrib_instance_of, AttrUtils.attrib_opt_instance_of, AttrUtils.attrib_factory, AttrUtils.attrib_immutable, AttrUtils.attrib_opt_immutable,
    AttrUtils.attrib_private_immutable_builder in D; try (rewrite CH in D by (apply G)); cbn [bind] in D; try (destruct G as (G & e & E); rewrite E in D; cbn [bind] in D); cbv in D; injection D as <-;
    (split; [reflexivity|]); (split; [reflexivity|]); intros g n v n1 NA MA; unfold step, raw; cbn [a_default a_converter a_validator AttrUtils.validate stored AttrUtils.convert bind].
  all: assert (forall (x : res V) m, (x, m) = (Ok v, n1) <-> x = Ok v /\ n1 = m) as PE by (intros; split; [intros H; inversion H; auto|intros (-> & ->); reflexivity]).
  all: assert (forall w : V, Ok w = Ok v <-> w = v) as OE by (intros; split; [now intros [= ->]|now intros ->]).
  all: assert (forall w : V, Some w = Some v <-> w = v) as SE by (intros; split; [now intros [= ->]|now intros ->]).
  all: destruct g as [w|]; cbn [bind]; rewrite ?PE, ?OE, ?SE; rewrite ?IV by (first [exact G|constructor; intros t' [<-|[<-|[]]]; [exact G|constructor]]).
  - intuition congruence.
  - split; [intros (X & _)|intros ((X & _) & _)]; discriminate.
  - intuition congruence.
  - intuition congruence.
  - intuition congruence.
  - intuition congruence.
  - assert (inst v (TTuple [t; TClass none_type]) <-> v = none \/ inst v t) as X.
    { split; [intros X; inversion X as [|t' l' J Y]; subst; destruct J as [<-|[<-|[]]]; [now right|left; inversion Y; now apply none_type_spec]|].
      intros [->|X]; [apply inst_tuple with (TClass none_type); [right; now left|constructor; now apply none_type_spec]|apply inst_tuple with t; [now left|exact X]]. }
    rewrite X. intuition congruence.
  - assert (inst v (TTuple [t; TClass none_type]) <-> v = none \/ inst v t) as X.
    { split; [intros X; inversion X as [|t' l' J Y]; subst; destruct J as [<-|[<-|[]]]; [now right|left; inversion Y; now apply none_type_spec]|].
      intros [->|X]; [apply inst_tuple with (TClass none_type); [right; now left|constructor; now apply none_type_spec]|apply inst_tuple with t; [now left|exact X]]. }
    rewrite X. intuition congruence.
  - intuition congruence.
  - destruct (run k n) as [w|x]; cbn [bind]; intuition congruence.
  - split; [intros ((w' & [= <-] & H) & ->); auto|intros ((H & ->) & _); eauto].
  - exfalso. now apply MA.
  - unfold empty_immutable_if_none. destruct (is_none w) eqn:N; [apply none_spec in N; subst w; split; [intros ([(_ & H)|(w' & [= <-] & X & _)] & ->); [auto|contradiction]|intros ((H & ->) & _); auto]|].
    assert (w <> none) by (intros X; apply none_spec in X; congruence). split; [intros ([([X|X] & _)|(w' & [= <-] & _ & X)] & ->); [discriminate|congruence|auto]|]. intros ((X & ->) & _). split; [right; eauto|reflexivity].
  - unfold empty_immutable_if_none. pose proof (of_empty c e G E) as OE1. assert ((if is_none e then empty_ c else of_ c e) = Ok e) as -> by (destruct (is_none e); assumption).
    split; [intros ([(_ & X)|(w & X & _)] & ->); [rewrite E in X; auto|discriminate]|]. intros ((X & ->) & _). split; [left; split; [now left|rewrite E; exact X]|reflexivity].
  - specialize (NA eq_refl). discriminate.
  - destruct (run (builder c) n) as [w|x]; cbn [bind]; intuition congruence.
Qed.



Notation declared_as := (fun (d : str * decl) (f : str * attribute) => fst d = fst f /\ declare (snd d) = Ok (snd f)).
Lemma params_names ds fields : Forall (fun d => good (snd d)) ds -> Forall2 declared_as ds fields -> params fields = arg_names ds.
Proof using none_spec none_type_spec of_empty run user_convert user_validate.
  intros G F. induction F as [|(x, d) (y, a) ds fields (X & D) F IH]; [reflexivity|]. inversion G as [|? ? G1 G2]; subst. simpl in X, D, G1. subst y. destruct (declared d a G1 D) as (I & _).
  unfold AttrUtils.params, AttrUtils.init_fields, arg_names in *. cbn [filter snd]. rewrite I. destruct (is_arg d); cbn [map fst]; rewrite IH by exact G2; reflexivity.
Qed.
Lemma object_fill ds fields : Forall (fun d => good (snd d)) ds -> Forall2 declared_as ds fields -> forall given n,
  (lacks (init_fields fields) (map given (params fields)) = true -> forall obj n', ~ object_of given ds n obj n') /\
  (lacks (init_fields fields) (map given (params fields)) = false -> forall obj n',
     object_of given ds n obj n' <-> fill fields (map given (params fields)) n = (Ok obj, n') /\ Forall2 (fun f o => fst f = fst o /\ validate (a_validator _ _ _ _ (snd f)) (snd o) = Ok tt) fields obj).
Proof using none_spec none_type_spec of_empty.
  intros G F given. induction F as [|(x, d) (y, a) ds fields (X & D) F IH]; intros n.
  - split; [discriminate|]. intros _ obj n'. split; [intros H; inversion H; subst; split; [reflexivity|constructor]|]. intros (H & H'). inversion H'; subst. simpl in H. inversion H; subst. constructor.
  - inversion G as [|? ? G1 G2]; subst. simpl in X, D, G1. subst y. destruct (declared d a G1 D) as (I & MA & ST). specialize (IH G2).
    assert (params ((x, a) :: fields) = if is_arg d then param_name x :: params fields else params fields) as PE by (unfold AttrUtils.params, AttrUtils.init_fields; cbn [filter snd]; rewrite I; destruct (is_arg d); reflexivity).
    assert (init_fields ((x, a) :: fields) = if is_arg d then (x, a) :: init_fields fields else init_fields fields) as IE by (unfold AttrUtils.init_fields; cbn [filter snd]; rewrite I; destruct (is_arg d); reflexivity).
    rewrite PE, IE. set (g := if is_arg d then given (param_name x) else None).
    assert (lacks (if is_arg d then (x, a) :: init_fields fields else init_fields fields) (map given (if is_arg d then param_name x :: params fields else params fields)) =
            (mandatory a && match g with None => true | Some _ => false end) || lacks (init_fields fields) (map given (params fields))) as LE.
    { subst g. destruct (is_arg d) eqn:A; [reflexivity|]. destruct (mandatory a) eqn:M; [|reflexivity]. rewrite MA in M. destruct d; discriminate. }
    rewrite LE. assert (forall v n1, stored d (given (param_name x)) n v n1 <-> stored d g n v n1) as SG by (intros v n1; subst g; destruct (is_arg d) eqn:A; [tauto|destruct d; try discriminate; simpl; tauto]).
    split.
    + intros L obj n' O. inversion O as [|nm d' r' n0 v n1 obj' n2 S1 O1]; subst. apply orb_true_iff in L. destruct L as [L|L].
      * apply andb_true_iff in L. destruct L as (M & L). apply SG in S1. destruct g as [w|]; [discriminate|]. rewrite MA in M. destruct d; try discriminate; simpl in S1; [destruct S1 as (S1 & _); discriminate|destruct S1 as ((w & S1 & _) & _); discriminate].
      * now apply (proj1 (IH n1) L obj' n').
    + intros L obj n'. apply orb_false_iff in L. destruct L as (L1 & L2).
      assert (is_arg d = false -> g = None) as GA by (intros A; subst g; now rewrite A).
      assert (mandatory a = true -> g <> None) as GM by (intros M Y; rewrite M, Y in L1; discriminate).
      assert (map given (if is_arg d then param_name x :: params fields else params fields) = if a_init _ _ _ _ a then g :: map given (params fields) else map given (params fields)) as -> by (rewrite I; subst g; destruct (is_arg d); reflexivity).
      rewrite fill_cons; [|exact GM|rewrite I; exact GA]. specialize (ST g n). split.
      * intros O. inversion O as [|nm d' r' n0 v n1 obj' n2 S1 O1]; subst. apply SG, ST in S1; [|exact GA|exact GM]. destruct S1 as (S1 & S2). rewrite S1. apply (proj2 (IH n1) L2) in O1. destruct O1 as (O1 & O2). rewrite O1. cbn [bind]. split; [reflexivity|]. constructor; auto.
      * intros (E & F2). destruct (step a g n) as ([v|e] & n1) eqn:SE; [|discriminate]. destruct (AttrUtils.fill _ _ _ _ _ _ _ _ _ fields _ n1) as ([l|e] & n2) eqn:FE; [|discriminate]. cbn [bind] in E. inversion E; subst; clear E.
        inversion F2 as [|? ? ? ? (_ & V1) V2]; subst. simpl in V1. econstructor; [apply SG, ST; [exact GA|exact GM|split; [reflexivity|exact V1]]|]. apply (proj2 (IH n1) L2). auto.
Qed.
Lemma fill_names (fields : list (str * attribute)) gs n o n' : Forall (fun f => mandatory (snd f) = true -> a_init _ _ _ _ (snd f) = true) fields -> length gs = length (init_fields fields) ->
  lacks (init_fields fields) gs = false -> fill fields gs n = (Ok o, n') -> map fst o = map fst fields.
Proof using.
  clear of_empty none_type_spec none_spec. intros MI. revert gs n o n'. induction MI as [|(x, a) fields MI1 MI IH]; intros gs n o n' LG L FE; [simpl in FE; inversion FE; reflexivity|].
  unfold AttrUtils.init_fields in L, LG. cbn [filter snd] in L, LG. simpl in MI1.
  assert (exists g gs', gs = (if a_init _ _ _ _ a then g :: gs' else gs') /\ (mandatory a = true -> g <> None) /\ (a_init _ _ _ _ a = false -> g = None) /\ length gs' = length (init_fields fields) /\ lacks (init_fields fields) gs' = false) as (g & gs' & -> & G1 & G2 & G3 & G4).
  { destruct (a_init V C K U a) eqn:A.
    - destruct gs as [|g gs']; [discriminate|]. exists g, gs'. cbn [AttrUtils.lacks] in L. apply orb_false_iff in L. destruct L as (L1 & L2). split; [reflexivity|]. split; [intros M ->; rewrite M in L1; discriminate|]. split; [discriminate|]. split; [now injection LG|exact L2].
    - exists None, gs. split; [reflexivity|]. split; [intros M; discriminate (MI1 M)|]. auto. }
  rewrite fill_cons in FE by assumption. destruct (step a g n) as ([v|e] & n1); [|discriminate]. destruct (AttrUtils.fill _ _ _ _ _ _ _ _ _ fields _ n1) as ([l|e] & n2) eqn:F2; [|discriminate]. cbn [bind] in FE. inversion FE; subst. cbn [map fst]. f_equal. eapply IH; eassumption.
Qed.
Lemma validate_all_app (fields : list (str * attribute)) (obj pre : list (str * V)) : NoDup (map fst pre ++ map fst obj) -> map fst fields = map fst obj ->
  (validate_all fields (pre ++ obj) = Ok tt <-> Forall2 (fun f o => fst f = fst o /\ validate (a_validator _ _ _ _ (snd f)) (snd o) = Ok tt) fields obj).
Proof using.
  clear of_empty none_type_spec none_spec.
  revert pre fields. induction obj as [|(x, v) obj IH]; intros pre fields ND NE.
  - destruct fields; [|discriminate]. split; [constructor|reflexivity].
  - destruct fields as [|(y, a) fields]; [discriminate|]. simpl in NE. injection NE as -> NE. cbn [AttrUtils.validate_all].
    assert (kget V (pre ++ (x, v) :: obj) x = Some v) as ->.
    { simpl in ND. apply NoDup_remove_2 in ND. assert (~ In x (map fst pre)) as NI by (intros J; apply ND, in_or_app; now left). clear - NI. induction pre as [|(k, w) r IHr]; simpl; [now rewrite str_eqb_refl|].
      destruct (str_eqb k x) eqn:E; [apply str_eqb_eq in E; exfalso; apply NI; now left|]. apply IHr. intros J. apply NI. now right. }
    replace (pre ++ (x, v) :: obj) with ((pre ++ [(x, v)]) ++ obj) by (rewrite <- app_assoc; reflexivity).
    specialize (IH (pre ++ [(x, v)]) fields). rewrite map_app, <- app_assoc in IH. specialize (IH ND NE). split.
    + intros H. destruct (validate (a_validator _ _ _ _ a) v) as [[]|] eqn:VE; [|discriminate]. cbn [bind] in H. constructor; [split; [reflexivity|exact VE]|]. now apply IH.
    + intros H. inversion H as [|? ? ? ? (_ & V1) V2]; subst. simpl in V1. rewrite V1. cbn [bind]. now apply IH.
Qed.
Lemma object_names given ds n obj n' : object_of given ds n obj n' -> map fst obj = map fst ds.
Proof using. clear of_empty none_type_spec none_spec. induction 1; [reflexivity|]. cbn [map fst]. now f_equal. Qed.
Lemma fields_names ds fields : Forall2 declared_as ds fields -> map fst fields = map fst ds.
Proof using. clear of_empty none_type_spec none_spec. induction 1 as [|? ? ? ? (E & _)]; [reflexivity|]. cbn [map]. now f_equal. Qed.
Lemma twice_spec l : twice l = false <-> NoDup l.
Proof using.
  clear of_empty none_type_spec none_spec. induction l as [|x r IH]; simpl; [split; [constructor|reflexivity]|]. rewrite orb_false_iff, IH, NoDup_cons_iff. split; intros (A & B); (split; [|exact B]).
  - intros J. rewrite (proj2 (existsb_exists _ _)) in A; [discriminate|]. exists x. split; [exact J|apply str_eqb_refl].
  - destruct (existsb (str_eqb x) r) eqn:E; [|reflexivity]. apply existsb_exists in E. destruct E as (y & J & Y). apply str_eqb_eq in Y. subst y. contradiction.
Qed.
Lemma object_args given given' ds n obj n' : (forall p, In p (arg_names ds) -> given p = given' p) -> object_of given ds n obj n' -> object_of given' ds n obj n'.
Proof using.
  clear of_empty none_type_spec none_spec. intros H O. induction O as [|x d r n v n1 obj n2 S1 O IH]; [constructor|]. econstructor.
  - destruct (is_arg d) eqn:A; [|destruct d; try discriminate; exact S1]. rewrite <- H; [exact S1|]. unfold arg_names. simpl. rewrite A. now left.
  - apply IH. intros p J. apply H. unfold arg_names in *. simpl. destruct (is_arg d); [now right|exact J].
Qed.

(** A constructor call returns exactly the object described by the declarations and the arguments. *)
Theorem C96_construct : forall ds fields pos kws n obj n', Forall (fun d => good (snd d)) ds -> NoDup (map fst ds) -> class_of ds fields -> NoDup (map fst kws) ->
  (construct fields pos kws n = (Ok obj, n') <-> exists given, arguments (arg_names ds) pos kws given /\ object_of given ds n obj n').
Proof using none_spec none_type_spec of_empty.
  intros ds fields pos kws n obj n' G ND (F & DC) NK. pose proof (params_names ds fields G F) as PN. pose proof (fields_names ds fields F) as FN.
  assert (NoDup (arg_names ds)) as NP by (rewrite <- PN; apply twice_spec; unfold define_class in DC; destruct (negb _); [discriminate|]; destruct (twice _) eqn:T; [discriminate|reflexivity]).
  destruct (bind_spec V (arg_names ds) pos kws NP NK) as (B1 & B2 & _). unfold AttrUtils.construct. fold params. rewrite PN. split.
  - destruct (bind_args V (arg_names ds) pos kws) as [l|] eqn:B; [|discriminate]. destruct (B1 l eq_refl) as (given & A & ->). rewrite <- PN. destruct (object_fill ds fields G F given n) as (_ & O2). rewrite <- PN in A.
    destruct (AttrUtils.lacks _ _ _ _ _ _) eqn:L; [discriminate|]. destruct (AttrUtils.fill _ _ _ _ _ _ _ _ _ _ _ n) as ([o|e] & n1) eqn:FE; [|discriminate]. intros E. destruct (validate_all fields o) as [[]|] eqn:VE; [|discriminate]. cbn [bind] in E.
    inversion E; subst; clear E. exists given. split; [exact A|]. apply (O2 eq_refl). split; [reflexivity|].
    assert (map fst obj = map fst fields) as ON.
    { eapply fill_names; [| |exact L|exact FE].
      - clear - none_spec none_type_spec of_empty G F user_convert user_validate run. induction F as [|(x, d) (y, a) ds fields (X & D) F IH]; constructor; inversion G as [|? ? G1 G2]; subst; [|auto]. simpl in *. destruct (declared d a G1 D) as (-> & -> & _). destruct d; auto; discriminate.
      - unfold AttrUtils.params. rewrite !map_length. reflexivity. }
    apply (validate_all_app fields obj []); [simpl; rewrite ON, FN; exact ND|congruence|exact VE].
  - intros (given & A & O). rewrite (B2 given A). rewrite <- PN in *. destruct (object_fill ds fields G F given n) as (O1 & O2). destruct (AttrUtils.lacks _ _ _ _ _ _) eqn:L; [destruct (O1 eq_refl _ _ O)|]. pose proof (object_names _ _ _ _ _ O) as ON. apply (O2 eq_refl) in O. destruct O as (FE & V2).
    rewrite FE. apply (validate_all_app fields obj []) in V2; [|simpl; rewrite ON; exact ND|congruence]. simpl in V2. rewrite V2. reflexivity.
Qed.

Lemma step_error d a g n e n1 : good d -> declare d = Ok a -> (mandatory a = true -> g <> None) -> step a g n = (Raise e, n1) ->
  (exists k, n1 = S n /\ run k n = Raise e) \/ (exists c w, of_ c w = Raise e).
Proof using none_spec of_empty.
  intros G D M S1. assert (forall c, is_immutable c = true -> check_immutable_collection C is_immutable format type_str (TClass c) = Ok c) as CH by (intros; now apply check_ok).
  destruct d as [t|t d []|t d|k|c|c|c]; cbn [good] in G; unfold declare, AttrUtils.attrib_instance_of, AttrUtils.attrib_opt_instance_of, AttrUtils.attrib_factory, AttrUtils.attrib_immutable, AttrUtils.attrib_opt_immutable,
    AttrUtils.attrib_private_immutable_builder in D; try (rewrite CH in D by (apply G)); cbn [bind] in D; try (destruct G as (G & x & E); rewrite E in D; cbn [bind] in D); cbv in D; injection D as <-;
    unfold step, raw in S1; cbn [a_default a_converter AttrUtils.convert] in S1; destruct g as [w|]; cbn [bind] in S1; try (inversion S1; fail); try (exfalso; now apply M).
  - destruct (run k n) as [v|x] eqn:R; cbn [bind] in S1; inversion S1; subst. eauto.
  - inversion S1; subst. right. eauto.
  - unfold empty_immutable_if_none in S1. destruct (is_none w); [rewrite E in S1; inversion S1|]. inversion S1. right. eauto.
  - unfold empty_immutable_if_none in S1. rewrite (of_empty c x G E), E in S1. destruct (is_none x); inversion S1.
  - destruct (run (builder c) n) as [v|x] eqn:R; cbn [bind] in S1; inversion S1; subst. eauto.
Qed.
Lemma step_count a g n r n1 : step a g n = (r, n1) -> n <= n1.
Proof using. clear of_empty none_type_spec none_spec. unfold step, raw. destruct g; [|destruct (a_default V C K U a)]; intros E; inversion E; subst; (apply le_n || (apply le_S; apply le_n)). Qed.
Lemma fill_errors ds fields : Forall (fun d => good (snd d)) ds -> Forall2 declared_as ds fields -> forall given n r n',
  lacks (init_fields fields) (map given (params fields)) = false -> fill fields (map given (params fields)) n = (r, n') ->
  n <= n' /\ forall e, r = Raise e -> (exists k m, n <= m < n' /\ run k m = Raise e) \/ (exists c w, of_ c w = Raise e).
Proof using none_spec none_type_spec of_empty user_validate.
  intros G F given. induction F as [|(x, d) (y, a) ds fields (X & D) F IH]; intros n r n' L FE; [simpl in FE; inversion FE; subst; split; [reflexivity|discriminate]|].
  inversion G as [|? ? G1 G2]; subst. simpl in X, D, G1. subst y. destruct (declared d a G1 D) as (I & MA & _). specialize (IH G2).
  assert (params ((x, a) :: fields) = if is_arg d then param_name x :: params fields else params fields) as PE by (unfold AttrUtils.params, AttrUtils.init_fields; cbn [filter snd]; rewrite I; destruct (is_arg d); reflexivity).
  assert (init_fields ((x, a) :: fields) = if is_arg d then (x, a) :: init_fields fields else init_fields fields) as IE by (unfold AttrUtils.init_fields; cbn [filter snd]; rewrite I; destruct (is_arg d); reflexivity).
  rewrite PE in FE, L. rewrite IE in L. set (g := if is_arg d then given (param_name x) else None).
  assert (lacks (if is_arg d then (x, a) :: init_fields fields else init_fields fields) (map given (if is_arg d then param_name x :: params fields else params fields)) =
          (mandatory a && match g with None => true | Some _ => false end) || lacks (init_fields fields) (map given (params fields))) as LE.
  { subst g. destruct (is_arg d) eqn:A; [reflexivity|]. destruct (mandatory a) eqn:M; [|reflexivity]. rewrite MA in M. destruct d; discriminate. }
  rewrite LE in L. apply orb_false_iff in L. destruct L as (L1 & L2).
  assert (is_arg d = false -> g = None) as GA by (intros A; subst g; now rewrite A).
  assert (mandatory a = true -> g <> None) as GM by (intros M Y; rewrite M, Y in L1; discriminate).
  assert (map given (if is_arg d then param_name x :: params fields else params fields) = if a_init _ _ _ _ a then g :: map given (params fields) else map given (params fields)) as ME by (rewrite I; subst g; destruct (is_arg d); reflexivity).
  rewrite ME in FE. rewrite fill_cons in FE; [|exact GM|rewrite I; exact GA]. clear PE IE LE ME. destruct (step a g n) as ([v|e] & n1) eqn:SE; pose proof (step_count _ _ _ _ _ SE) as SC.
  - destruct (AttrUtils.fill _ _ _ _ _ _ _ _ _ fields _ n1) as (r1 & n2) eqn:F2. destruct (IH n1 r1 n2 L2 F2) as (C2 & E2). inversion FE; subst; clear FE. split; [lia|]. intros e E. destruct r1 as [l|e1]; [discriminate|]. cbn [bind] in E.
    destruct (E2 e ltac:(congruence)) as [(k & m & B & R)|H]; [left; exists k, m; split; [lia|exact R]|right; exact H].
  - inversion FE; subst. split; [exact SC|]. intros e' [= <-]. destruct (step_error _ _ _ _ _ _ G1 D GM SE) as [(k & -> & R)|H]; [left; exists k, n; split; [lia|exact R]|right; exact H].
Qed.
Lemma validate_errors d a v e : good d -> declare d = Ok a -> validate (a_validator _ _ _ _ a) v = Raise e -> e = TypeError.
Proof using none_spec of_empty.
  intros G D. assert (forall c, is_immutable c = true -> check_immutable_collection C is_immutable format type_str (TClass c) = Ok c) as CH by (intros; now apply check_ok).
  assert (forall t, proper t -> (let* b := isinstance v t in if b then Ok tt else Raise TypeError) = Raise e -> e = TypeError) as T.
  { intros t P E. destruct (isinstance_spec v t P) as (b & B & _). rewrite B in E. cbn [bind] in E. destruct b; congruence. }
  destruct d as [t|t d []|t d|k|c|c|c]; cbn [good] in G; unfold declare, AttrUtils.attrib_instance_of, AttrUtils.attrib_opt_instance_of, AttrUtils.attrib_factory, AttrUtils.attrib_immutable, AttrUtils.attrib_opt_immutable,
    AttrUtils.attrib_private_immutable_builder in D; try (rewrite CH in D by (apply G)); cbn [bind] in D; try (destruct G as (G & x & E); rewrite E in D; cbn [bind] in D); cbv in D; injection D as <-;
    cbn [a_validator AttrUtils.validate]; try discriminate; apply T; try exact G.
  constructor. intros t' [<-|[<-|[]]]; [exact G|constructor].
Qed.
Lemma validate_all_errors ds fields o e : Forall (fun d => good (snd d)) ds -> Forall2 declared_as ds fields -> validate_all fields o = Raise e -> e = TypeError.
Proof using none_spec of_empty.
  intros G F. induction F as [|(x, d) (y, a) ds fields (X & D) F IH]; [discriminate|]. inversion G as [|? ? G1 G2]; subst. cbn [AttrUtils.validate_all]. destruct (kget V o y) as [v|]; [|cbn [bind]; auto].
  destruct (AttrUtils.validate _ _ _ _ _ (a_validator V C K U a) v) as [[]|e'] eqn:VE; cbn [bind]; [auto|]. intros [= <-]. simpl in D, G1. eapply validate_errors; eassumption.
Qed.
Lemma class_params ds fields : Forall (fun d => good (snd d)) ds -> class_of ds fields -> params fields = arg_names ds /\ NoDup (arg_names ds).
Proof using none_spec none_type_spec of_empty run user_convert user_validate.
  intros G (F & DC). pose proof (params_names ds fields G F) as PN. split; [exact PN|]. rewrite <- PN. apply twice_spec. unfold define_class in DC. destruct (negb _); [discriminate|]. destruct (twice _) eqn:T; [discriminate|reflexivity].
Qed.
(** A constructor call that raises raises TypeError, or what a factory or the immutable collection's class raised.  With arguments that do not fit, nothing is called. *)
Theorem C96_errors : forall ds fields pos kws n r n', Forall (fun d => good (snd d)) ds -> class_of ds fields -> NoDup (map fst kws) ->
  construct fields pos kws n = (r, n') ->
  n <= n' /\ (forall e, r = Raise e -> e = TypeError \/ (exists k m, n <= m < n' /\ run k m = Raise e) \/ (exists c w, of_ c w = Raise e)) /\
  ((forall given, ~ arguments (arg_names ds) pos kws given) -> r = Raise TypeError /\ n' = n).
Proof using none_spec none_type_spec of_empty.
  intros ds fields pos kws n r n' G CO NK E. destruct (class_params ds fields G CO) as (PN & NP). destruct CO as (F & _). destruct (bind_spec V (arg_names ds) pos kws NP NK) as (B1 & B2 & B3).
  unfold AttrUtils.construct in E. fold params in E. rewrite PN in E. destruct (bind_args V (arg_names ds) pos kws) as [l|e0] eqn:B.
  - destruct (B1 l eq_refl) as (given & A & ->). rewrite <- PN in E, A. destruct (AttrUtils.lacks _ _ _ _ _ _) eqn:L; [inversion E; subst; split; [lia|]; split; [intros e [= <-]; now left|intros NA; rewrite <- PN in NA; destruct (NA given A)]|].
    destruct (AttrUtils.fill _ _ _ _ _ _ _ _ _ _ _ n) as (r1 & n1) eqn:FE. destruct (fill_errors ds fields G F given n r1 n1 L FE) as (C1 & E1). destruct r1 as [o|e1]; inversion E; subst; clear E; (split; [exact C1|]); (split; [|intros NA; rewrite <- PN in NA; destruct (NA given A)]).
    + intros e. destruct (validate_all fields o) as [[]|e'] eqn:VE; cbn [bind]; [discriminate|]. intros [= <-]. left. eapply validate_all_errors; eassumption.
    + intros e [= <-]. right. now apply E1.
  - rewrite (B3 e0 eq_refl) in E. inversion E; subst. split; [lia|]. split; [intros e [= <-]; now left|auto].
Qed.

(** ** Values made by factories belong to one object only *)
(** A field whose value no argument gives: a private builder, or a factory's attribute whose argument is missing *)
Definition made (ds : list (str * decl)) (pos : list V) (kws : list (str * V)) (x : str) : Prop :=
  (exists c, In (x, PrivateBuilder c) ds) \/
  (exists k, In (x, FromFactory k) ds /\ forall given, arguments (arg_names ds) pos kws given -> given (param_name x) = None).
Lemma made_bounds given ds n obj n' : object_of given ds n obj n' -> NoDup (map fst ds) ->
  n <= n' /\ (forall x d v, In (x, d) ds -> In (x, v) obj -> (exists c, d = PrivateBuilder c) \/ (exists k, d = FromFactory k) /\ given (param_name x) = None -> exists k m, n <= m < n' /\ run k m = Ok v) /\
  ((forall k k' m m' v, run k m = Ok v -> run k' m' = Ok v -> m = m') ->
   forall x y d d' v, x <> y -> In (x, d) ds -> In (x, v) obj -> (exists c, d = PrivateBuilder c) \/ (exists k, d = FromFactory k) /\ given (param_name x) = None ->
     In (y, d') ds -> (exists c, d' = PrivateBuilder c) \/ (exists k, d' = FromFactory k) /\ given (param_name y) = None -> ~ In (y, v) obj).
Proof using.
  clear of_empty none_type_spec none_spec. intros O. induction O as [|name d r n v n1 obj n2 S1 O IH]; intros ND.
  - split; [reflexivity|]. split; [intros x d v []|]. intros _ x y d d' v _ [].
  - simpl in ND. apply NoDup_cons_iff in ND. destruct ND as (NI & ND). destruct (IH ND) as (C1 & M1 & D1). clear IH.
    pose proof (object_names _ _ _ _ _ O) as ON.
    assert (forall q, In (name, q) obj -> False) as NO by (intros q J; apply NI; rewrite <- ON; apply (in_map fst) in J; exact J).
    assert (forall q, In (name, q) r -> False) as NR by (intros q J; apply NI; apply (in_map fst) in J; exact J).
    assert (n <= n1 /\ ((exists c, d = PrivateBuilder c) \/ (exists k, d = FromFactory k) /\ given (param_name name) = None -> exists k, n1 = S n /\ run k n = Ok v)) as (C0 & M0).
    { destruct d; simpl in S1; try (assert (n1 = n) as -> by (clear - S1; tauto); split; [apply le_n|intros [(c0 & X)|((k & X) & _)]; discriminate]).
      - destruct S1 as [(Y & ->)|(Y & R & ->)]; (split; [auto|]); intros [(c & X)|((k' & X) & Z)]; try discriminate; [congruence|eauto].
      - destruct S1 as (R & ->). split; [auto|]. eauto. }
    split; [apply Nat.le_trans with n1; assumption|]. split.
    + intros x d0 w Jd [Jv|Jv] FF.
      * inversion Jv; subst. destruct Jd as [Jd|Jd]; [inversion Jd; subst|destruct (NR _ Jd)]. destruct (M0 FF) as (k & -> & R). exists k, n. split; [split; [apply le_n|exact C1]|exact R].
      * destruct Jd as [Jd|Jd]; [inversion Jd; subst; destruct (NO _ Jv)|]. destruct (M1 x d0 w Jd Jv FF) as (k & m & (A & B) & R). exists k, m. split; [split; [apply Nat.le_trans with n1; assumption|exact B]|exact R].
    + intros FR x y d0 d0' w NE Jd Jv FF Jd' FF' Jv'.
      destruct Jd as [Jd|Jd], Jd' as [Jd'|Jd']; try (inversion Jd; subst); try (inversion Jd'; subst).
      * now destruct NE.
      * destruct Jv as [Jv|Jv]; [inversion Jv; subst|destruct (NO _ Jv)]. destruct Jv' as [Jv'|Jv']; [inversion Jv'; subst; now destruct NE|].
        destruct (M0 FF) as (k & -> & R). destruct (M1 y d0' w Jd' Jv' FF') as (k' & m & (A & B) & R'). rewrite (FR _ _ _ _ _ R R') in A. now apply Nat.nle_succ_diag_l in A.
      * destruct Jv' as [Jv'|Jv']; [inversion Jv'; subst|destruct (NO _ Jv')]. destruct Jv as [Jv|Jv]; [inversion Jv; subst; now destruct NE|].
        destruct (M0 FF') as (k & -> & R). destruct (M1 x d0 w Jd Jv FF) as (k' & m & (A & B) & R'). rewrite (FR _ _ _ _ _ R R') in A. now apply Nat.nle_succ_diag_l in A.
      * destruct Jv as [Jv|Jv]; [inversion Jv; subst; destruct (NR _ Jd)|]. destruct Jv' as [Jv'|Jv']; [inversion Jv'; subst; destruct (NR _ Jd')|]. now apply (D1 FR x y d0 d0' w).
Qed.
(** A program's constructor calls, with the declarations of their classes *)
Definition good_call (c : list (str * decl) * list (str * attribute) * list V * list (str * V)) : Prop :=
  let '(ds, fields, pos, kws) := c in Forall (fun d => good (snd d)) ds /\ NoDup (map fst ds) /\ class_of ds fields /\ NoDup (map fst kws).
Definition call_of (c : list (str * decl) * list (str * attribute) * list V * list (str * V)) := let '(ds, fields, pos, kws) := c in (fields, pos, kws).
Lemma construct_made ds fields pos kws n obj n' : good_call (ds, fields, pos, kws) -> construct fields pos kws n = (Ok obj, n') ->
  (forall x v, made ds pos kws x -> In (x, v) obj -> exists k m, n <= m < n' /\ run k m = Ok v) /\
  ((forall k k' m m' v, run k m = Ok v -> run k' m' = Ok v -> m = m') -> forall x y v, x <> y -> made ds pos kws x -> made ds pos kws y -> In (x, v) obj -> ~ In (y, v) obj).
Proof using none_spec none_type_spec of_empty.
  intros (G & ND & CO & NK) E. apply (C96_construct ds fields pos kws n obj n' G ND CO NK) in E. destruct E as (given & A & O). destruct (made_bounds given ds n obj n' O ND) as (_ & M1 & D1).
  assert (forall x, made ds pos kws x -> exists d, In (x, d) ds /\ ((exists c, d = PrivateBuilder c) \/ (exists k, d = FromFactory k) /\ given (param_name x) = None)) as MD.
  { intros x [(c & J)|(k & J & H)]; [exists (PrivateBuilder c); split; [exact J|left; eauto]|exists (FromFactory k); split; [exact J|right; split; [eauto|now apply H]]]. }
  split.
  - intros x v M J. destruct (MD x M) as (d & Jd & FF). eapply M1; eassumption.
  - intros FR x y v NE MX MY J. destruct (MD x MX) as (d & Jd & FF). destruct (MD y MY) as (d' & Jd' & FF'). eapply D1; eassumption.
Qed.
Lemma history_made calls : Forall good_call calls -> forall n os n', history (map call_of calls) n = (os, n') ->
  n <= n' /\ (forall i ds fields pos kws obj x v, nth_error calls i = Some (ds, fields, pos, kws) -> nth_error os i = Some (Ok obj) -> made ds pos kws x -> In (x, v) obj -> exists k m, n <= m < n' /\ run k m = Ok v).
Proof using none_spec none_type_spec of_empty.
  induction 1 as [|(((ds, fields), pos), kws) calls G F IH]; intros n os n' E.
  - inversion E; subst. split; [reflexivity|]. intros [] ? ? ? ? ? ? ? X; discriminate.
  - cbn [map call_of AttrUtils.history] in E. destruct (AttrUtils.construct _ _ _ _ _ _ _ _ _ _ _ fields pos kws n) as (o & n1) eqn:CE. destruct (AttrUtils.history _ _ _ _ _ _ _ _ _ _ _ (map call_of calls) n1) as (os1 & n2) eqn:HE. inversion E; subst; clear E.
    destruct (C96_errors ds fields pos kws n o n1 (proj1 G) (proj1 (proj2 (proj2 G))) (proj2 (proj2 (proj2 G))) CE) as (C1 & _). destruct (IH n1 os1 n' HE) as (C2 & M2). split; [lia|].
    intros [|i] ds0 fields0 pos0 kws0 obj x v X Y M J; simpl in X, Y.
    + inversion X; subst. inversion Y; subst. destruct (construct_made ds0 fields0 pos0 kws0 n obj n1) as (CM & _); [exact G|exact CE|]. destruct (CM x v M J) as (k & m & B & R). exists k, m. split; [lia|exact R].
    + destruct (M2 i ds0 fields0 pos0 kws0 obj x v X Y M J) as (k & m & B & R). exists k, m. split; [lia|exact R].
Qed.
(** If every call of a factory returns a new object, then in every program no two fields (of one object or of different objects, of the same class or of
    different classes) that are filled by factories hold the same object. *)
Theorem C96_not_shared : (forall k k' m m' v, run k m = Ok v -> run k' m' = Ok v -> m = m') ->
  forall calls n os n', Forall good_call calls -> history (map call_of calls) n = (os, n') ->
  forall i j x y ds fields pos kws obj ds' fields' pos' kws' obj' v w,
  nth_error calls i = Some (ds, fields, pos, kws) -> nth_error os i = Some (Ok obj) -> made ds pos kws x -> In (x, v) obj ->
  nth_error calls j = Some (ds', fields', pos', kws') -> nth_error os j = Some (Ok obj') -> made ds' pos' kws' y -> In (y, w) obj' ->
  (i, x) <> (j, y) -> v <> w.
Proof using none_spec none_type_spec of_empty.
  intros FR calls n os n' F. revert n os n'. induction F as [|(((ds0, fields0), pos0), kws0) calls G F IH]; intros n os n' E i j x y ds fields pos kws obj ds' fields' pos' kws' obj' v w X Y M J X' Y' M' J' NE EQ.
  - destruct i; discriminate.
  - subst w. cbn [map call_of AttrUtils.history] in E. destruct (AttrUtils.construct _ _ _ _ _ _ _ _ _ _ _ fields0 pos0 kws0 n) as (o & n1) eqn:CE. destruct (AttrUtils.history _ _ _ _ _ _ _ _ _ _ _ (map call_of calls) n1) as (os1 & n2) eqn:HE. inversion E; subst; clear E.
    destruct (history_made calls F n1 os1 n' HE) as (_ & HM).
    destruct i as [|i], j as [|j]; simpl in X, Y, X', Y'.
    + inversion X; inversion X'; inversion Y; subst. subst. inversion Y'; subst. destruct (construct_made _ _ _ _ n obj' n1 G CE) as (_ & D). eapply (D FR x y v); try eassumption. congruence.
    + inversion X; inversion Y; subst. subst. destruct (construct_made _ _ _ _ n obj n1 G CE) as (D & _). destruct (D x v M J) as (k & m & B & R). destruct (HM j _ _ _ _ _ y v X' Y' M' J') as (k' & m' & B' & R').
      pose proof (FR _ _ _ _ _ R R'). lia.
    + inversion X'; inversion Y'; subst. subst. destruct (construct_made _ _ _ _ n obj' n1 G CE) as (D & _). destruct (D y v M' J') as (k & m & B & R). destruct (HM i _ _ _ _ _ x v X Y M J) as (k' & m' & B' & R').
      pose proof (FR _ _ _ _ _ R R'). lia.
    + eapply (IH n1 os1 n' HE i j x y _ _ _ _ obj _ _ _ _ obj' v v); try eassumption; [|reflexivity]. intros Q. apply NE. inversion Q. reflexivity.
Qed.

(** ** Declaring *)
(** The immutable-collection variants need a class of immutable collections: another class is a ValueError (if the message with the class's name can be formatted), anything else
    a TypeError, also a tuple of such classes. *)
Theorem C96_needs_immutable_collection : forall x t,
  (forall c, t = TClass c -> is_immutable c = false -> (exists m, format (!!"Type " ++ type_str t ++ !!" is not an immutable collection") = Ok m) ->
     attrib_immutable t x = Raise ValueError /\ attrib_opt_immutable t x = Raise ValueError /\ attrib_private_immutable_builder t x = Raise ValueError) /\
  ((forall c, t <> TClass c) -> attrib_immutable t x = Raise TypeError /\ attrib_opt_immutable t x = Raise TypeError /\ attrib_private_immutable_builder t x = Raise TypeError).
Proof using.
  clear of_empty none_type_spec none_spec.
  intros x t. unfold AttrUtils.attrib_immutable, AttrUtils.attrib_opt_immutable, AttrUtils.attrib_private_immutable_builder. split.
  - intros c -> I (m & FO). unfold check_immutable_collection. rewrite (proj2 (C73_arg format _ (Some (!!"Type " ++ type_str (TClass c) ++ !!" is not an immutable collection"))) I); [auto|]. intros m' [= <-]. eauto.
  - intros N. destruct t as [c|l|]; [destruct (N c eq_refl)| |]; cbn [check_immutable_collection bind]; auto.
Qed.
(** All well-formed declarations succeed. *)
Theorem C96_declared : forall d, good d -> exists a, declare d = Ok a.
Proof using.
  clear of_empty none_type_spec none_spec.
  intros d G. assert (forall c, is_immutable c = true -> check_immutable_collection C is_immutable format type_str (TClass c) = Ok c) as CH by (intros; now apply check_ok).
  destruct d as [t|t d []|t d|k|c|c|c]; cbn [good] in G; unfold declare, AttrUtils.attrib_instance_of, AttrUtils.attrib_opt_instance_of, AttrUtils.attrib_factory, AttrUtils.attrib_immutable, AttrUtils.attrib_opt_immutable,
    AttrUtils.attrib_private_immutable_builder; try (rewrite CH by (apply G)); cbn [bind]; try (destruct G as (G & x & E); rewrite E; cbn [bind]); cbv; eauto.
Qed.
(** A class of declared attributes is made iff among the constructor's arguments none without default follows one with a default, and their names differ. *)
Theorem C96_class : forall ds fields, Forall (fun d => good (snd d)) ds -> Forall2 declared_as ds fields ->
  (define_class V C K U fields = Ok fields <->
   NoDup (arg_names ds) /\ forall i j di dj, i < j -> nth_error (filter (fun d => is_arg (snd d)) ds) i = Some di -> nth_error (filter (fun d => is_arg (snd d)) ds) j = Some dj ->
     (exists t, snd dj = Instance t) \/ (exists c, snd dj = Immutable c) -> (exists t, snd di = Instance t) \/ (exists c, snd di = Immutable c)).
Proof using none_spec none_type_spec of_empty run user_convert user_validate.
  intros ds fields G F. rewrite <- (params_names ds fields G F).
  set (mand := fun d : decl => match d with Instance _ | Immutable _ => true | _ => false end).
  assert (forall d, mand d = true <-> (exists t, d = Instance t) \/ (exists c, d = Immutable c)) as MS.
  { intros []; simpl; (split; [intros X; try discriminate; eauto|intros [(? & X)|(? & X)]; try discriminate; reflexivity]). }
  assert (map (fun f => mandatory (snd f)) (init_fields fields) = map (fun d => mand (snd d)) (filter (fun d => is_arg (snd d)) ds)) as ME.
  { clear - G F none_spec none_type_spec of_empty run user_convert user_validate. induction F as [|(x, d) (y, a) ds fields (X & D) F IH]; [reflexivity|]. inversion G as [|? ? G1 G2]; subst. simpl in D, G1. destruct (declared d a G1 D) as (I & MA & _).
    unfold AttrUtils.init_fields in *. cbn [filter snd]. rewrite I. destruct (is_arg d); [|auto]. cbn [map snd]. rewrite MA, IH by exact G2. reflexivity. }
  assert (forall l : list (str * attribute), defaults_last V C K U l = true <-> forall i j ai aj, i < j -> nth_error (map (fun f => mandatory (snd f)) l) i = Some ai -> nth_error (map (fun f => mandatory (snd f)) l) j = Some aj -> aj = true -> ai = true) as DL.
  { clear. induction l as [|(x, a) r IH]; simpl; [split; [intros _ [] ? ? ? ? X; discriminate|reflexivity]|]. rewrite andb_true_iff, orb_true_iff, IH. clear IH. split.
    - intros (H1 & H2) [|i] [|j] ai aj L X Y E; try lia; simpl in X, Y; [|apply (H2 i j ai aj); auto; lia]. injection X as <-. destruct H1 as [H1|H1]; [exact H1|]. subst aj. rewrite forallb_forall in H1. apply nth_error_In in Y. apply in_map_iff in Y. destruct Y as (f & Y & J). specialize (H1 f J). rewrite Y in H1. discriminate.
    - intros H. split; [|intros i j ai aj L X Y E; apply (H (S i) (S j) ai aj); auto; lia]. destruct (mandatory a) eqn:M; [now left|right]. apply forallb_forall. intros f J. apply In_nth_error in J. destruct J as (j & J). destruct (mandatory (snd f)) eqn:MF; [|reflexivity].
      specialize (H 0%nat (S j) false true ltac:(lia) eq_refl). simpl in H. rewrite nth_error_map, J in H. simpl in H. rewrite MF in H. discriminate (H eq_refl eq_refl). }
  unfold define_class. fold init_fields params. rewrite <- twice_spec. specialize (DL (init_fields fields)). rewrite ME in DL.
  assert (defaults_last V C K U (init_fields fields) = true <-> forall i j di dj, i < j -> nth_error (filter (fun d => is_arg (snd d)) ds) i = Some di -> nth_error (filter (fun d => is_arg (snd d)) ds) j = Some dj -> (exists t, snd dj = Instance t) \/ (exists c, snd dj = Immutable c) -> (exists t, snd di = Instance t) \/ (exists c, snd di = Immutable c)) as DL'.
  { rewrite DL. split.
    - intros H i j di dj L X Y E. apply MS. apply MS in E. apply (H i j (mand (snd di)) (mand (snd dj)) L); [rewrite nth_error_map, X; reflexivity|rewrite nth_error_map, Y; reflexivity|exact E].
    - intros H i j ai aj L X Y E. rewrite nth_error_map in X, Y. destruct (nth_error _ i) as [di|] eqn:X1; [|discriminate]. destruct (nth_error _ j) as [dj|] eqn:Y1; [|discriminate]. simpl in X, Y. injection X as <-. injection Y as <-. apply MS in E. apply MS. eapply H; eassumption. }
  rewrite <- DL'. clear. destruct (defaults_last V C K U (init_fields fields)); cbn [negb]; destruct (twice (params fields)); split; auto; try discriminate; intros (A & B); discriminate.
Qed.
(** The functions pass further positional arguments on to attr.ib, whose first parameter is the default: those that set a default themselves cannot take any. *)
Theorem C96_positional_refuted : forall x d, x_first _ _ _ _ x = Some d ->
  (forall t e, attrib_opt_instance_of t e x = Raise TypeError) /\ (forall k, attrib_factory k x = Raise TypeError) /\
  (forall c, is_immutable c = true -> attrib_private_immutable_builder (TClass c) x = Raise TypeError) /\
  (forall c e, is_immutable c = true -> empty_ c = Ok e -> attrib_opt_immutable (TClass c) x = Raise TypeError).
Proof using.
  clear of_empty none_type_spec none_spec. intros [f s kw] d X. simpl in X. subst f.
  assert (forall d0 v c i, with_own V C K U {| k_default := Some d0; k_validator := v; k_converter := c; k_factory := None; k_init := i |} {| x_first := Some d; x_second := s; x_kw := kw |} = Raise TypeError) as W.
  { intros d0 v c i. unfold with_own. cbn [k_default k_validator k_converter k_init x_kw]. assert (forall A (a b : option A), (exists o, once a b = Ok o) \/ once a b = Raise TypeError) as OT by (intros A [a|] [b|]; simpl; eauto).
    destruct (k_default V C K U kw) as [d1|]; cbn [once bind]; [reflexivity|]. destruct (OT _ v (k_validator V C K U kw)) as [(o & ->)| ->]; cbn [bind]; [|reflexivity]. destruct (OT _ c (k_converter V C K U kw)) as [(o2 & ->)| ->]; cbn [bind]; [|reflexivity].
    destruct (OT _ i (k_init V C K U kw)) as [(o3 & ->)| ->]; cbn [bind]; [|reflexivity]. reflexivity. }
  repeat split.
  - intros t e. apply W.
  - intros k. apply W.
  - intros c I. unfold AttrUtils.attrib_private_immutable_builder. rewrite (proj2 (check_ok c) I). cbn [bind]. apply W.
  - intros c e I E. unfold AttrUtils.attrib_opt_immutable. rewrite (proj2 (check_ok c) I). cbn [bind]. rewrite E. cbn [bind]. apply W.
Qed.
(** A keyword argument factory= (and no other further argument): the functions that set a default raise ValueError; the others make an attribute filled by the factory. *)
Theorem C96_factory_keyword : forall f,
  let x := {| x_first := None; x_second := None; x_kw := {| k_default := None; k_validator := None; k_converter := None; k_factory := Some f; k_init := None |} |} in
  (forall t e, attrib_opt_instance_of t e x = Raise ValueError) /\ (forall k, attrib_factory k x = Raise ValueError) /\
  (forall c, is_immutable c = true -> attrib_private_immutable_builder (TClass c) x = Raise ValueError) /\
  (forall c e, is_immutable c = true -> empty_ c = Ok e -> attrib_opt_immutable (TClass c) x = Raise ValueError) /\
  (forall t, exists a, attrib_instance_of t x = Ok a /\ a_default _ _ _ _ a = Factory f) /\
  (forall c, is_immutable c = true -> exists a, attrib_immutable (TClass c) x = Ok a /\ a_default _ _ _ _ a = Factory f).
Proof using.
  clear of_empty none_type_spec none_spec. intros f. cbv zeta. repeat split.
  - intros c I. unfold AttrUtils.attrib_private_immutable_builder. rewrite (proj2 (check_ok c) I). reflexivity.
  - intros c e I E. unfold AttrUtils.attrib_opt_immutable. rewrite (proj2 (check_ok c) I). cbn [bind]. rewrite E. reflexivity.
  - intros t. eexists. split; reflexivity.
  - intros c I. unfold AttrUtils.attrib_immutable. rewrite (proj2 (check_ok c) I). cbn [bind]. eexists. split; reflexivity.
Qed.
End Props.

(** ** A concrete class: a mandatory int, an optional str or int, an optional immutable set, a list made by a factory, a private builder *)
Inductive ex_value := XNone | XInt (z : Z) | XStr (s : str) | XList (l : list Z) | XSet (l : list Z) | XObject (n : nat).
Inductive ex_class := ClsNone | ClsInt | ClsStr | ClsSet.
Inductive ex_callable := CallList | CallBuilder (c : ex_class).
Definition ex_is_none v := match v with XNone => true | _ => false end.
Definition ex_instance v c := match v, c with XNone, ClsNone | XInt _, ClsInt | XStr _, ClsStr | XSet _, ClsSet => true | _, _ => false end.
Definition ex_immutable c := match c with ClsSet => true | _ => false end.
Definition ex_of (c : ex_class) v := match v with XSet l => Ok (XSet l) | XList l => Ok (XSet (nodup Z.eq_dec l)) | _ => Raise TypeError end.
Definition ex_empty (c : ex_class) := Ok (XSet []).
Definition ex_run (k : ex_callable) n := Ok (XObject n).
Notation ex_decl := (decl ex_value ex_class ex_callable).
Definition ex_decls : list (str * ex_decl) :=
  [(!!"id", Instance _ _ _ (TClass ClsInt)); (!!"name", OptInstance _ _ _ (TTuple [TClass ClsStr; TClass ClsInt]) XNone); (!!"_items", OptImmutable _ _ _ ClsSet); (!!"tags", FromFactory _ _ _ CallList);
   (!!"_builder", PrivateBuilder _ _ _ ClsSet)].
Notation ex_declare := (declare ex_value ex_class ex_callable unit ClsNone ex_immutable ex_empty CallBuilder (fun m => Ok m) (fun _ => !!"x")).
Definition ex_fields := Eval vm_compute in match mapM (fun d => let* a := ex_declare (snd d) in Ok (fst d, a)) ex_decls with Ok l => l | Raise _ => [] end.
Notation ex_construct := (construct ex_value ex_class ex_callable unit ex_is_none ex_instance ex_of ex_empty (fun _ v => Ok v) (fun _ _ => Ok tt) ex_run).
Example C96_witness :
  (forall v, ex_is_none v = true <-> v = XNone) /\ (forall v, ex_instance v ClsNone = true <-> v = XNone) /\ (forall c e, ex_immutable c = true -> ex_empty c = Ok e -> ex_of c e = Ok e) /\
  (forall k k' m m' v, ex_run k m = Ok v -> ex_run k' m' = Ok v -> m = m') /\
  Forall (fun d => good ex_value ex_class ex_callable ex_immutable ex_empty (snd d)) ex_decls /\ NoDup (map fst ex_decls) /\
  class_of ex_value ex_class ex_callable unit ClsNone ex_immutable ex_empty CallBuilder (fun m => Ok m) (fun _ => !!"x") ex_decls ex_fields /\
  arg_names _ _ _ ex_decls = [!!"id"; !!"name"; !!"items"; !!"tags"] /\
  ex_construct ex_fields [XInt 1] [(!!"items", XList [3; 4; 3]%Z)] 0 =
    (Ok [(!!"id", XInt 1); (!!"name", XNone); (!!"_items", XSet [4; 3]%Z); (!!"tags", XObject 0); (!!"_builder", XObject 1)], 2%nat) /\
  ex_construct ex_fields [XInt 2; XStr !!"b"; XNone] [] 2 = (Ok [(!!"id", XInt 2); (!!"name", XStr !!"b"); (!!"_items", XSet []); (!!"tags", XObject 2); (!!"_builder", XObject 3)], 4%nat) /\
  ex_construct ex_fields [XStr !!"b"] [] 4 = (Raise TypeError, 6%nat) /\ ex_construct ex_fields [] [(!!"builder", XNone); (!!"id", XInt 1)] 4 = (Raise TypeError, 4%nat).
Proof.
  split; [intros []; split; (reflexivity || discriminate)|]. split; [intros []; split; (reflexivity || discriminate)|]. split; [intros c e _ [= <-]; reflexivity|].
  split; [intros k k' m m' v [= <-] [= ->]; reflexivity|].
  split; [constructor; [constructor|]; constructor; [simpl; constructor; intros t [<-|[<-|[]]]; constructor|]; constructor; [simpl; split; [reflexivity|eexists; reflexivity]|]; constructor; [exact I|]; constructor; [reflexivity|constructor]|].
  split; [apply twice_spec; reflexivity|]. split; [split; [repeat constructor|reflexivity]|]. repeat split.
Qed.
Print Assumptions C96_construct.
Print Assumptions C96_errors.
Print Assumptions C96_not_shared.
Print Assumptions C96_needs_immutable_collection.
Print Assumptions C96_declared.
Print Assumptions C96_class.
Print Assumptions C96_positional_refuted.
Print Assumptions C96_factory_keyword.
Print Assumptions C96_argument_names.
Print Assumptions C96_witness.
