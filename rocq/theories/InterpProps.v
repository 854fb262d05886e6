(** * Properties C48, C50: interpolation *)
From Coq Require Import Relations.
From Verif Require Import Prelude PyStr Params ParamsSpec ParamsProofs ParamsPairs ParamsGet Graph Interp InterpSpec InterpProofs InterpLoop InterpExpand.
From Verif Require GraphProps.

Section P.
Variable is_word : N -> bool.
Variable ft : N -> bool.
Hypothesis pct_word : is_word pct = false.

(** What the loader interpolates: the Parameters made from the nested dict [m] of the file, with
    well-formed top-level parameters [ctx] as context. *)
Definition loadable (m : data_t) (ctx p : pv) : Prop :=
  plain (PMap m) /\ from_mapping (PMap m) [] = Ok p /\ wf_params ctx /\ params_prefix ctx = [] /\
  refs_passable is_word (PMap m).

Lemma before_split {A} (dec : forall a b : A, {a = b} + {a <> b}) (ys : list A) a b l1 l2 : NoDup ys -> GraphProps.before ys a b -> rev ys = l1 ++ a :: l2 -> In b l1.
Proof.
  intros N (x & y & E & I) R. subst ys. rewrite rev_app_distr in R. simpl in R. rewrite <- app_assoc in R. simpl in R.
  apply in_rev in I. apply NoDup_rev in N. rewrite rev_app_distr in N. simpl in N. rewrite <- app_assoc in N. simpl in N.
  revert l1 R N I. generalize (rev x) (rev y). clear. intros X Y. induction Y as [|z Y IH]; intros l1 R N I; simpl in *.
  - destruct l1 as [|c l1]; simpl in R; injection R as -> R; [|now left]. exfalso. inversion N; subst. auto.
  - destruct l1 as [|c l1]; simpl in R; injection R as -> R.
    + exfalso. inversion N; subst. apply H1. apply in_or_app. simpl; auto.
    + right. inversion N; subst. eapply IH; eauto.
Qed.

Lemma outcome m ctx p : loadable m ctx p ->
  let file := PMap m in
  (circular is_word ft file /\ interpolate is_word ft p ctx = Raise ParameterInterpolationError) \/
  (~ circular is_word ft file /\ ~ all_defined is_word ft file ctx /\ interpolate is_word ft p ctx = Raise ParameterError) \/
  (~ circular is_word ft file /\ all_defined is_word ft file ctx /\ self_containing is_word ft file ctx /\ interpolate is_word ft p ctx = Raise RecursionError) \/
  (~ circular is_word ft file /\ all_defined is_word ft file ctx /\ ~ self_containing is_word ft file ctx /\
   exists R, interpolate is_word ft p ctx = Ok R /\ wf_params R /\ params_prefix R = [] /\ interpolated is_word ft file ctx R).
Proof using pct_word.
  intros (PL & FM & [WC IC] & PC & NTL) file. assert (DL := from_value_nodots _ _ _ FM). destruct (from_value_is_params _ _ _ FM) as [IP PP].
  assert (dictify p = file) as DI by (eapply from_value_dictify; eauto).
  assert (namespaced_items p = items m) as NI by (rewrite (namespaced_items_from _ _ _ PL FM IP); reflexivity).
  destruct (gather_spec is_word ft pct_word m PL DL NTL) as (ns & es & G & Gn & Ge).
  unfold interpolate. rewrite PP, PC, DI, NI. fold file. change (flatten [] file) with (st0 m). cbv zeta. rewrite G. cbn [bind fst snd].
  assert (exists g, mk_digraph (list_eq_dec N.eq_dec) ns es = Ok g) as (g & Eg).
  { apply GraphProps.C40_validation. intros u v H. apply Ge in H. split; apply Gn; [left|right; eauto]. destruct H as (s & V & R & _). exists s. eauto. }
  rewrite Eg. cbn [bind]. destruct (GraphProps.C40_graph_contents _ _ _ _ Eg) as (Cn & Ce & _).
  assert (forall u v, clos_trans _ (GraphProps.edge g) u v <-> clos_trans _ (refers is_word ft file) u v) as CT.
  { intros u v. split; induction 1 as [x y H|? ? ? ? ? ? ?]; try (eapply t_trans; eassumption); constructor.
    - apply Ge, Ce. exact H.
    - apply Ce, Ge. exact H. }
  destruct (GraphProps.C39_topological_sort (list_eq_dec N.eq_dec) g) as (ys & e & -> & Ny & _ & Bf & _ & Cy); [now exists ns, es|].
  destruct Cy as [(-> & Perm & Ac)|[-> (v & Cyc)]]; [|left; split; [exists v; now apply CT|reflexivity]]. right.
  assert (~ circular is_word ft file) as NC by (intros (a & C); apply Ac; exists a; now apply CT).
  assert (forall a, In a (rev ys) <-> node is_word ft m a) as Iy.
  { intros a. rewrite <- in_rev. rewrite <- Gn, <- Cn. split; [apply (Permutation_in _ Perm)|apply (Permutation_in _ (Permutation_sym Perm))]. }
  destruct (loop_spec is_word ft pct_word m ctx PL DL WC NTL (rev ys) [] (st0 m) (inv0 is_word ft m ctx PL)) as [(st & d & EL & Iv & Dn)|[EL (q & v & V & U)]].
  - intros a. apply Iy.
  - now apply NoDup_rev.
  - intros a _ [].
  - intros l1 a l2 b E R. right. eapply (before_split (list_eq_dec N.eq_dec)); [exact Ny| |exact E]. apply Bf.
    + apply Ce, Ge. assumption.
    + apply in_rev. apply Iy. right. eauto.
  - right. rewrite EL. cbn [bind]. assert (F : final is_word ft m ctx st).
    { eapply inv_final; eauto. intros a Na. apply Dn. right. now apply Iy. }
    assert (all_defined is_word ft file ctx) as AD by (intros q v V; destruct F as [_ F]; destruct (F q v V) as (w & _ & W); eauto).
    assert (EN := expand_none_iff is_word ft pct_word m ctx PL WC st F). destruct (expand (S (S (length st))) st []) as [t|] eqn:X.
    + right. split; [assumption|]. split; [assumption|]. split; [intros K; apply EN in K; discriminate|].
      destruct (expand_from_mapping is_word ft m ctx PL DL WC st F _ _ X) as (R & ER & WR & PR & VR). exists R. split; [assumption|]. split; [assumption|]. split; [assumption|].
      destruct (expand_interpolated is_word ft m ctx PL WC st F _ _ X) as (I1 & I2 & I3). split; [|split].
      * intros q V. rewrite VR. auto.
      * intros q k V V'. rewrite VR. auto.
      * intros q v V. destruct (I3 q v V) as (w & D & H). exists w. split; [assumption|]. intros r. rewrite VR, H. destruct w; [now rewrite VR|reflexivity].
    + left. split; [assumption|]. split; [assumption|]. split; [now apply EN|reflexivity].
  - left. split; [assumption|]. rewrite EL. cbn [bind]. split; [|reflexivity]. intros K. destruct (K q v V) as (w & W). eapply U; eauto.
Qed.

(** C48: which outcome, exactly when. *)
Theorem C48_outcomes : forall m ctx p, loadable m ctx p ->
  let file := PMap m in let r := interpolate is_word ft p ctx in
  (r = Raise ParameterInterpolationError <-> circular is_word ft file) /\
  (r = Raise ParameterError <-> ~ circular is_word ft file /\ ~ all_defined is_word ft file ctx) /\
  (r = Raise RecursionError <-> ~ circular is_word ft file /\ all_defined is_word ft file ctx /\ self_containing is_word ft file ctx) /\
  ((exists R, r = Ok R) <-> ~ circular is_word ft file /\ all_defined is_word ft file ctx /\ ~ self_containing is_word ft file ctx) /\
  (forall e, r = Raise e -> e = ParameterInterpolationError \/ e = ParameterError \/ e = RecursionError).
Proof using pct_word.
  intros m ctx p L file r. destruct (outcome m ctx p L) as [(H & E)|[(H & H2 & E)|[(H & H2 & H3 & E)|(H & H2 & H3 & R & E & _)]]]; fold r file in E, H;
    try fold file in H2; try fold file in H3; rewrite E;
    (split; [|split; [|split; [|split]]]); try (split; [discriminate|tauto]); try (split; [tauto|reflexivity]); try (split; [intros (R0 & K); discriminate K|tauto]);
    try (intros e K; injection K as <-; auto; fail); try (intros e K; discriminate K).
  split; [tauto|eauto].
Qed.
(** C48: on success the result has the file's namespaces, every parameter of the file with its
    value (references replaced), and nothing else. *)
Theorem C48_result : forall m ctx p R, loadable m ctx p -> interpolate is_word ft p ctx = Ok R ->
  wf_params R /\ params_prefix R = [] /\ interpolated is_word ft (PMap m) ctx R.
Proof using pct_word.
  intros m ctx p R L E. destruct (outcome m ctx p L) as [(H & E')|[(H & H2 & E')|[(H & H2 & H3 & E')|(H & H2 & H3 & R' & E' & X)]]]; rewrite E in E'; try discriminate.
  injection E' as <-. assumption.
Qed.
(** The values are uniquely determined. *)
Theorem C48_values_unique : forall m ctx, wf ctx ->
  (forall q w w', Den is_word ft (PMap m) ctx q w -> Den is_word ft (PMap m) ctx q w' -> w = w') /\
  (forall s ts ts', tokenized is_word s ts -> tokenized is_word s ts' -> ts = ts').
Proof using pct_word.
  intros m ctx W. split; [intros; eapply (Den_fun is_word ft); eauto|]. intros s ts ts' T T'. eapply tokenized_fun; eauto.
Qed.
(** Parameters without references keep their values. *)
Theorem C48_unreferenced_kept : forall m ctx p R q v, loadable m ctx p -> interpolate is_word ft p ctx = Ok R ->
  view (PMap m) q = Some (Leaf v) -> (forall s n, v = PStr s -> ~ refers_to is_word s n) -> view R q = Some (Leaf v).
Proof using pct_word.
  intros m ctx p R q v L E V N. assert (C := C48_result _ _ _ _ L E). destruct C as (_ & _ & _ & _ & I). destruct (I q v V) as (w & D & H).
  specialize (H []). rewrite app_nil_r in H. rewrite H. destruct L as (PL & _ & [WC _] & _). assert (w = VLeaf v) as ->.
  { eapply (Den_fun is_word ft); eauto. assert ((exists s, v = PStr s) \/ forall s, v <> PStr s) as [(s & ->)|NS]; [destruct v; try (right; congruence); left; eauto| |].
    - assert (refs (tokens is_word s) = []) as Er.
      { destruct (refs (tokens is_word s)) as [|n r] eqn:Er; [reflexivity|]. exfalso. apply (N s n eq_refl). apply refers_to_iff; [assumption|]. rewrite Er. simpl; auto. }
      apply (tokens_chars _ pct_word) in Er. eapply den_text; [eassumption|apply (tokens_tokenized _ pct_word)| |].
      + intros n K. rewrite Er in K. destruct s; discriminate.
      + rewrite Er. apply Text_chars.
    - now apply den_const. }
  apply (view_plain_leaf _ PL) in V. destruct v; simpl in *; tauto || reflexivity.
Qed.

(** C50: a reference to a parameter of the file that is truthy, or (when the file does not have it) to one
    of the context whatever its value, is replaced by that value. *)
Lemma whole_value m ctx p R q n w : loadable m ctx p -> interpolate is_word ft p ctx = Ok R ->
  ref_name is_word n -> view (PMap m) q = Some (Leaf (PStr (pct :: n ++ [pct]))) -> Lookup is_word ft (PMap m) ctx n w ->
  forall r, view R (q ++ r) = match w with VLeaf x => view x r | VDict q' => view R (q' ++ r) end.
Proof using pct_word.
  intros L E Rn V Lk r. destruct (C48_result _ _ _ _ L E) as (_ & _ & _ & _ & I). destruct (I _ _ V) as (w' & D & H). rewrite H.
  destruct L as (PL & _ & [WC _] & _). assert (w' = w) as ->; [|reflexivity]. eapply (Den_fun is_word ft); eauto. eapply den_whole; eauto.
  apply tk_ref; [assumption|constructor].
Qed.
Theorem C50_file_value_used : forall m ctx p R q n v, loadable m ctx p -> interpolate is_word ft p ctx = Ok R ->
  ref_name is_word n -> view (PMap m) q = Some (Leaf (PStr (pct :: n ++ [pct]))) ->
  view (PMap m) (py_split dot n) = Some (Leaf v) -> (forall s, v <> PStr s) -> truthy ft v = true ->
  view R q = Some (Leaf v).
Proof using pct_word.
  intros m ctx p R q n v L E Rn V Vn NS T. rewrite <- (app_nil_r q). rewrite (whole_value m ctx p R q n (VLeaf v) L E Rn V).
  - destruct L as (PL & _). apply (view_plain_leaf _ PL) in Vn. destruct v; simpl in *; tauto || reflexivity.
  - apply lk_file; [|assumption]. now apply den_const.
Qed.
Theorem C50_context_value_used : forall m ctx p R q n v, loadable m ctx p -> interpolate is_word ft p ctx = Ok R ->
  ref_name is_word n -> view (PMap m) q = Some (Leaf (PStr (pct :: n ++ [pct]))) ->
  view (PMap m) (py_split dot n) = None -> Stored ctx n v ->
  forall r, view R (q ++ r) = view v r.
Proof using pct_word.
  intros m ctx p R q n v L E Rn V Vn St r. rewrite (whole_value m ctx p R q n (VLeaf v) L E Rn V); [reflexivity|]. now apply lk_context.
Qed.
(** Exactly the falsy values of the file are treated as if they were not there. *)
Theorem C50_falsy_ignored : forall m ctx p q n v, loadable m ctx p ->
  ref_name is_word n -> view (PMap m) q = Some (Leaf (PStr (pct :: n ++ [pct]))) ->
  view (PMap m) (py_split dot n) = Some (Leaf v) -> (forall s, v <> PStr s) -> truthy ft v = false ->
  (Absent ctx n -> interpolate is_word ft p ctx = Raise ParameterError \/ interpolate is_word ft p ctx = Raise ParameterInterpolationError) /\
  (forall x R, Stored ctx n x -> interpolate is_word ft p ctx = Ok R -> forall r, view R (q ++ r) = view x r).
Proof using pct_word.
  intros m ctx p q n v L Rn V Vn NS T. assert (Dn : Den is_word ft (PMap m) ctx (py_split dot n) (VLeaf v)) by (now apply den_const).
  split.
  - intros A. assert (~ all_defined is_word ft (PMap m) ctx) as ND.
    { intros AD. destruct (AD _ _ V) as (w & D). destruct L as (PL & _ & [WC _] & _).
      assert (Tk : tokenized is_word (pct :: n ++ [pct]) [TRef n]) by (apply tk_ref; [assumption|constructor]).
      inversion D as [? V'|? v' V' NS'|? s' n' ? V' T' L'|? s' ts' x V' T' NW' X']; subst; rewrite V in V'; try discriminate; injection V' as <-.
      - eapply NS'; reflexivity.
      - assert (E := tokenized_fun _ pct_word _ _ Tk _ T'). injection E as <-. inversion L' as [? ? D' T''|? ? ? D' T'' St|? ? V'' St]; subst.
        + assert (w = VLeaf v) by (eapply (Den_fun is_word ft); eauto). subst. simpl in T''. congruence.
        + eapply A; eauto.
        + eapply A; eauto.
      - assert (E := tokenized_fun _ pct_word _ _ Tk _ T'). eapply NW'; eauto. }
    destruct (outcome m ctx p L) as [(H & E')|[(H & H2 & E')|[(H & H2 & H3 & E')|(H & H2 & H3 & R' & E' & X)]]]; tauto.
  - intros x R St E r. rewrite (whole_value m ctx p R q n (VLeaf x) L E Rn V); [reflexivity|]. eapply lk_falsy; [eassumption|simpl; congruence|assumption].
Qed.
End P.

(** ** Concrete cases *)
Definition word_ascii (c : N) : bool := (((48 <=? c) && (c <=? 57)) || ((65 <=? c) && (c <=? 90)) || (c =? 95) || ((97 <=? c) && (c <=? 122)))%N.
Definition ft1 (f : N) : bool := negb (f =? 0)%N.
Definition run (m c : data_t) : res pv :=
  let* p := from_mapping (PMap m) [] in let* ctx := from_mapping (PMap c) [] in
  let* r := interpolate word_ascii ft1 p ctx in Ok (dictify r).
Definition ex_file : data_t :=
  [(!!"greeting", PStr !!"hello %person.name%, from %place%");
   (!!"person", PMap [(!!"name", PStr !!"Bob"); (!!"age", PInt 42)]);
   (!!"years", PStr !!"%person.age%");
   (!!"copy", PStr !!"%person%")].
Definition ex_ctx : data_t := [(!!"place", PStr !!"%here%")].
Example C48_witness : run ex_file ex_ctx = Ok (PMap
  [(!!"greeting", PStr !!"hello Bob, from %here%");
   (!!"person", PMap [(!!"name", PStr !!"Bob"); (!!"age", PInt 42)]);
   (!!"years", PInt 42);
   (!!"copy", PMap [(!!"name", PStr !!"Bob"); (!!"age", PInt 42)])]).
Proof. vm_compute. reflexivity. Qed.
(** The hypotheses of the theorems hold for it. *)
Ltac plain_tac := repeat match goal with
  | |- _ /\ _ => split
  | |- NoDup _ => constructor
  | |- Forall _ _ => constructor
  | |- ~ _ => let K := fresh in intros K; simpl in K; repeat (destruct K as [K|K]; [discriminate K|]); destruct K
  | |- dotless _ => let K := fresh in intros K; simpl in K; repeat (destruct K as [K|K]; [discriminate K|]); destruct K
  | |- _ => progress (cbn [plain wf keys map fst])
  | |- True => exact Logic.I
  end.
Definition ntl_check (is_word : N -> bool) (m : data_t) : bool :=
  forallb (fun e => match snd e with
                    | PStr s => forallb (fun n => forallb (fun i => match view (PMap m) (firstn i (py_split dot n)) with Some (Leaf _) => false | _ => true end)
                                                          (seq 1 (length (py_split dot n) - 1))) (refs (tokens is_word s))
                    | _ => true end) (leaves (PMap m)).
Lemma ntl_check_ok is_word (Hp : is_word pct = false) m : plain (PMap m) -> ntl_check is_word m = true -> refs_through_namespaces is_word (PMap m).
Proof.
  intros PL H q s n p k r v V R E K. apply (leaves_view _ PL) in V. apply refers_to_iff in R; [|assumption].
  destruct p as [|x p]; [discriminate|]. unfold ntl_check in H. rewrite forallb_forall in H. specialize (H _ V). cbn [snd] in H.
  rewrite forallb_forall in H. specialize (H _ R). rewrite forallb_forall in H. specialize (H (length (x :: p))).
  rewrite E in H. rewrite firstn_app, Nat.sub_diag, firstn_all, app_nil_r in H. rewrite K in H. enough (false = true) by discriminate. apply H. apply in_seq. rewrite app_length. simpl. lia.
Qed.
Example C48_hypotheses : exists ctx p, from_mapping (PMap ex_ctx) [] = Ok ctx /\ loadable word_ascii ex_file ctx p.
Proof.
  eexists; eexists. split; [reflexivity|]. assert (plain (PMap ex_file)) as PL by (unfold ex_file; plain_tac).
  split; [assumption|]. split; [reflexivity|]. split; [split; [plain_tac|reflexivity]|]. split; [reflexivity|].
  apply through_passable, ntl_check_ok; [reflexivity|assumption|]. vm_compute. reflexivity.
Qed.
(** The error cases occur: a cycle, an undefined name, a non-string inside text, a namespace that
    would contain itself. *)
Example C48_cycle_witness : run [(!!"a", PStr !!"x%b%"); (!!"b", PStr !!"%a%")] [] = Raise ParameterInterpolationError.
Proof. vm_compute. reflexivity. Qed.
Example C48_error_witness :
  run [(!!"a", PStr !!"%zzz%")] [] = Raise ParameterError /\
  run [(!!"n", PInt 1); (!!"a", PStr !!"n is %n%")] [] = Raise ParameterError /\
  run [(!!"a", PMap [(!!"x", PStr !!"%a%")])] [] = Raise RecursionError.
Proof. vm_compute. auto. Qed.
(** Refuted: "references in the result are all resolved" - substituted values are not rescanned:
    [place] above is replaced by the literal text %here%. *)
Theorem C48_no_reference_remains_refuted : ~ forall m c r, run m c = Ok r ->
  forall q s, view r q = Some (Leaf (PStr s)) -> forall n, ~ refers_to word_ascii s n.
Proof.
  intros H. eapply (H ex_file ex_ctx _ C48_witness [!!"greeting"] !!"hello Bob, from %here%" ltac:(reflexivity) !!"here").
  apply refers_to_iff; [reflexivity|]. vm_compute. auto.
Qed.
(** Refuted: "failed interpolations result in a ParameterError": a reference through a parameter
    that is not a namespace is an AttributeError or a TypeError, even if the context has it. *)
Theorem C48_failures_are_parameter_errors_refuted :
  run [(!!"a", PStr !!"text"); (!!"c", PStr !!"%a.b%")] [(!!"a", PMap [(!!"b", PInt 1)])] = Raise AttributeError /\
  run [(!!"a", PInt 3); (!!"c", PStr !!"%a.b.d%")] [] = Raise TypeError.
Proof. vm_compute. auto. Qed.
(** Refuted: "a reference to a defined parameter is substituted whatever its value". *)
Theorem C50_every_value_refuted :
  run [(!!"zero", PInt 0); (!!"a", PStr !!"%zero%")] [] = Raise ParameterError /\
  run [(!!"off", PBool false); (!!"a", PStr !!"%off%")] [] = Raise ParameterError /\
  run [(!!"none", PStr []); (!!"a", PStr !!"<%none%>")] [] = Raise ParameterError /\
  run [(!!"a", PStr !!"%zero%")] [(!!"zero", PInt 0)] = Ok (PMap [(!!"a", PInt 0)]).
Proof. vm_compute. auto. Qed.
Example C50_witness : run [(!!"n", PInt 5); (!!"a", PStr !!"%n%")] [] = Ok (PMap [(!!"n", PInt 5); (!!"a", PInt 5)]).
Proof. vm_compute. reflexivity. Qed.
Print Assumptions C48_outcomes.
Print Assumptions C48_result.
Print Assumptions C50_falsy_ignored.
