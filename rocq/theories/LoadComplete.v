(** * Property C127: which parameter files can be loaded, and what loading them gives *)
From Verif Require Import Prelude PyStr TextLib Utf8 Params ParamsSpec ParamsProofs ParamsUnify ParamsPairs ParamsGet ParamsGetProps ParamsEval ParamsEvalProps Interp InterpSpec InterpProofs InterpWf InterpProps Load LoadSpec LoadProps
  InterpLoop InterpExpand InterpBroken Fs FsProofs FsProps OsPath OsPathProofs Mains MainsProofs LoadFs LoadFsSpec LoadFsProps.
Require Import Relations.

(** ** Specification *)
(** A parameter on one side where the other has a namespace (a null on the new side does not count). *)
Definition at_odds (old new : option found) : Prop :=
  (exists v, old = Some (Leaf v) /\ new = Some Namespace) \/ (exists v, old = Some Namespace /\ new = Some (Leaf v) /\ v <> PNone).
Section Spec.
Variable fs : list (list str * fnode).
Variable is_word : N -> bool.
Variable ft : N -> bool.
Variable parse : str -> res yaml.
Variable environ : list (str * str).
(** [GivesAt before dir content after]: what the text [content] of a file in the directory [dir] means when the trees [before] have been loaded already.  (No function of the program is used
    to say this.)  The text is a YAML mapping with string keys; each of its includes is a file with a meaning, the later ones in the context of the earlier ones; without the
    list of includes it is a tree [own] whose names have no dots; [ctx] is what references can fall back on; references of [own] that go through one of its parameters are passed over (C48, C118), there is no circle of references, every parameter has a
    value, no namespace contains itself; [c] is [own] with the values put in; and [c] agrees with everything loaded before on what is a parameter and what is a namespace. *)
Inductive GivesAt : list pv -> option (list str) -> str -> list pv -> Prop :=
| gives_at before dir content raw incs mid own ctx c :
    parse content = Ok raw -> (exists m, raw = YMap m) -> string_keys raw ->
    include_list raw incs -> AllGive before dir incs mid ->
    own_parameters raw own -> (forall q k, view (PMap own) (q ++ [k]) <> None -> ~ In dot k) -> refs_passable is_word (PMap own) ->
    wf_params ctx -> params_prefix ctx = [] -> (forall q, view ctx q = fallback environ mid q) ->
    ~ circular is_word ft (PMap own) -> all_defined is_word ft (PMap own) ctx -> ~ self_containing is_word ft (PMap own) ctx ->
    wf_params c -> interpolated is_word ft (PMap own) ctx c ->
    (forall q, ~ at_odds (merged mid q) (view c q)) ->
    GivesAt before dir content (mid ++ [c])
with AllGive : list pv -> option (list str) -> list str -> list pv -> Prop :=
| all_none before dir : AllGive before dir [] before
| all_one before dir f q text mid fs_ after :
    points fs dir f q -> text_at fs q text ->
    GivesAt before (Some (tl q)) text mid -> AllGive mid dir fs_ after ->
    AllGive before dir (f :: fs_) after.
(** Where a reference in the text goes through a parameter of the file, the program passes it over (C118 tells what happens to the others). *)
Definition tame (content : str) : Prop := forall raw own, parse content = Ok raw -> own_parameters raw own -> refs_passable is_word (PMap own).
End Spec.

(** ** Trees that look the same *)
Definition veq (a b : pv) : Prop := forall q, view a q = view b q.
Lemma walk_sub p q v r : walk p q = Some v -> wf p -> view p (q ++ r) = view v r.
Proof.
  revert p. induction q as [|k q IH]; intros p H W; cbn [walk app] in *; [now injection H as ->|]. destruct p; try discriminate. cbn [view]. destruct (dfind data k) as [x|] eqn:E; [|discriminate].
  apply IH; [exact H|exact (wf_find _ _ _ _ W E)].
Qed.
Lemma nested_view t k : nested_key t k -> plain t -> exists q, view t (q ++ [k]) <> None.
Proof.
  induction 1 as [m k x I|m k1 x k I K IH]; intros P.
  - exists []. cbn [app view]. destruct (proj1 (dfind_some_key m k)) as (y & ->); [apply in_map_iff; now exists (k, x)|discriminate].
  - assert (P' := P). apply plain_map in P'. destruct P' as (ND & F). assert (D : dfind m k1 = Some x) by (now apply in_dfind). rewrite Forall_forall in F. destruct (IH (F _ I)) as (q & V).
    exists (k1 :: q). cbn [app view]. now rewrite D.
Qed.
Lemma view_dotless t q k : wf t -> view t (q ++ [k]) <> None -> dotless k.
Proof.
  revert t. induction q as [|a q IH]; intros t W V; destruct t; cbn [app view] in V; try congruence; try (now simpl in W).
  - destruct (dfind data k) as [x|] eqn:D; [|congruence]. apply wf_map in W. destruct W as (_ & F & _). rewrite Forall_forall in F. apply F. apply dfind_some_key. eauto.
  - destruct (dfind data a) as [x|] eqn:D; [|congruence]. apply (IH x); [exact (wf_find _ _ _ _ W D)|exact V].
Qed.
(** Values in two such contexts *)
Definition like (v v' : pv) : Prop := v = v' \/ is_params v = true /\ is_params v' = true /\ veq v v'.
Lemma like_view v v' : like v v' -> veq v v'.
Proof. intros [->|(_ & _ & H)]; [intros q; reflexivity|exact H]. Qed.
Lemma stored_like c c' n v : wf c -> wf c' -> veq c c' -> Stored c n v -> exists v', Stored c' n v' /\ like v v'.
Proof.
  intros W W' E S1. assert (Wv := stored_wf _ _ _ W S1). apply (stored_walk _ _ _ W) in S1. assert (A := E (py_split dot n)). rewrite !walk_view in A by assumption. rewrite S1 in A.
  destruct (walk c' (py_split dot n)) as [v'|] eqn:S2; [|discriminate]. exists v'. split; [now apply (stored_walk _ _ _ W')|]. injection A as A.
  destruct (is_params v) eqn:I, (is_params v') eqn:I'; try discriminate A; [|left; now injection A]. right. split; [exact I|]. split; [exact I'|]. intros r.
  rewrite <- (walk_sub c _ _ r S1 W), <- (walk_sub c' _ _ r S2 W'). apply E.
Qed.
Definition vlike (w w' : val) : Prop := match w, w' with VDict q, VDict q' => q = q' | VLeaf v, VLeaf v' => like v v' | _, _ => False end.

Section Same.
Variable is_word : N -> bool.
Variable ft : N -> bool.
Lemma true_like f f' w w' : veq f f' -> vlike w w' -> true_value ft f w -> true_value ft f' w'.
Proof.
  intros E L T. destruct w as [q|v], w' as [q'|v']; try contradiction; cbn [vlike true_value] in *.
  - subst q'. destruct T as (k & T). exists k. now rewrite <- E.
  - destruct L as [->|(I & I' & _)]; [exact T|]. destruct v'; try discriminate. reflexivity.
Qed.
Lemma vlike_sym w w' : vlike w w' -> vlike w' w.
Proof.
  destruct w, w'; cbn [vlike]; try tauto; [now intros ->|]. intros [->|(A & B & H)]; [now left|]. right. split; [exact B|]. split; [exact A|]. intros q. now rewrite H.
Qed.
Lemma den_like f f' c c' : veq f f' -> wf c -> wf c' -> veq c c' ->
  (forall q w, Den is_word ft f c q w -> exists w', Den is_word ft f' c' q w' /\ vlike w w') /\
  (forall n w, Lookup is_word ft f c n w -> exists w', Lookup is_word ft f' c' n w' /\ vlike w w') /\
  (forall ts x, Text is_word ft f c ts x -> Text is_word ft f' c' ts x).
Proof.
  intros Ef Wc Wc' Ec. apply (Den_all is_word ft f c (fun q w _ => exists w', Den is_word ft f' c' q w' /\ vlike w w') (fun n w _ => exists w', Lookup is_word ft f' c' n w' /\ vlike w w') (fun ts x _ => Text is_word ft f' c' ts x)).
  - intros q V. exists (VDict q). split; [constructor; now rewrite <- Ef|reflexivity].
  - intros q v V N. exists (VLeaf v). split; [apply den_const; [now rewrite <- Ef|exact N]|now left].
  - intros q s n w V T _ (w' & L & K). exists w'. split; [eapply den_whole; [rewrite <- Ef; exact V|exact T|exact L]|exact K].
  - intros q s ts x V T N _ X. exists (VLeaf (PStr x)). split; [eapply den_text; [rewrite <- Ef; exact V|exact T|exact N|exact X]|now left].
  - intros n w _ (w' & D & K) T. exists w'. split; [apply lk_file; [exact D|exact (true_like f f' w w' Ef K T)]|exact K].
  - intros n w v _ (w' & D & K) T S1. destruct (stored_like c c' n v Wc Wc' Ec S1) as (v' & S2 & K2). exists (VLeaf v'). split; [|exact K2]. eapply lk_falsy; [exact D| |exact S2].
    intros T'. apply T. refine (true_like f' f w' w _ (vlike_sym _ _ K) T'). intros q. now rewrite Ef.
  - intros n v V S1. destruct (stored_like c c' n v Wc Wc' Ec S1) as (v' & S2 & K2). exists (VLeaf v'). split; [|exact K2]. apply lk_context; [now rewrite <- Ef|exact S2].
  - constructor.
  - intros ch ts x _ X. now constructor.
  - intros n y ts x _ (w' & L & K) _ X. destruct w' as [|v']; [contradiction|]. cbn [vlike] in K. assert (v' = PStr y) as ->. { destruct K as [K|(K & _)]; [now symmetry|discriminate K]. } constructor; assumption.
Qed.
Lemma den_namespace_at f c : (forall q w, Den is_word ft f c q w -> forall q', w = VDict q' -> view f q' = Some Namespace).
Proof.
  apply (Den_mut is_word ft f c (fun q w _ => forall q', w = VDict q' -> view f q' = Some Namespace) (fun n w _ => forall q', w = VDict q' -> view f q' = Some Namespace) (fun ts x _ => True)); try discriminate; try (intros; exact Logic.I); intros; subst; auto.
  now injection H as <-.
Qed.
(** Two trees that are the same file with its values put in look the same. *)
Lemma interpolated_like f f' c c' t t' : veq f f' -> wf c -> wf c' -> veq c c' -> is_word pct = false ->
  (exists m, f' = PMap m) -> interpolated is_word ft f c t -> interpolated is_word ft f' c' t' -> view f [] = Some Namespace -> veq t t'.
Proof.
  intros Ef Wc Wc' Ec PW (m' & Em') (N1 & A1 & L1) (N2 & A2 & L2) R q.
  assert (forall p q, view f q = Some Namespace -> view t (q ++ p) = view t' (q ++ p)) as G; [|exact (G q [] R)].
  induction p as [|k p IH]; intros q0 V.
  - rewrite app_nil_r. rewrite (N1 q0 V). symmetry. apply N2. now rewrite <- Ef.
  - change (k :: p) with ([k] ++ p). rewrite app_assoc. destruct (view f (q0 ++ [k])) as [[|v]|] eqn:Vk.
    + exact (IH (q0 ++ [k]) Vk).
    + destruct (L1 _ _ Vk) as (w & D & E1). rewrite Ef in Vk. destruct (L2 _ _ Vk) as (w2 & D2 & E2). destruct (proj1 (den_like f f' c c' Ef Wc Wc' Ec) _ _ D) as (w' & D' & K).
      assert (w' = w2) as -> by (rewrite Em' in *; exact (proj1 (C48_values_unique is_word ft PW m' c' Wc') _ _ _ D' D2)).
      rewrite E1, E2. destruct w as [q'|x], w2 as [q2|x']; try contradiction; cbn [vlike] in K; [subst q2; apply IH; exact (den_namespace_at f c _ _ D _ eq_refl)|exact (like_view _ _ K p)].
    + assert (B1 := A1 q0 k V Vk). rewrite Ef in V, Vk. assert (B2 := A2 q0 k V Vk).
      destruct p as [|k' p]; [rewrite !app_nil_r; congruence|]. transitivity (@None found); [|symmetry].
      * destruct (view t ((q0 ++ [k]) ++ k' :: p)) eqn:X; [|reflexivity]. exfalso. assert (view t (q0 ++ [k]) = Some Namespace) by (apply (view_app t (q0 ++ [k]) (k' :: p)); congruence). congruence.
      * destruct (view t' ((q0 ++ [k]) ++ k' :: p)) eqn:X; [|reflexivity]. exfalso. assert (view t' (q0 ++ [k]) = Some Namespace) by (apply (view_app t' (q0 ++ [k]) (k' :: p)); congruence). congruence.
Qed.
Lemma circular_like f f' : veq f f' -> circular is_word ft f -> circular is_word ft f'.
Proof.
  intros E (a & C). exists a. assert (forall x y, clos_trans _ (refers is_word ft f) x y -> clos_trans _ (refers is_word ft f') x y) as G; [|now apply G]. clear -E. intros x y. induction 1 as [x y (s & V & R & P)|]; [|eapply t_trans; eassumption].
  constructor. exists s. split; [now rewrite <- E|]. split; [exact R|]. unfold present in *. rewrite <- !E. destruct (view f (py_split dot y)) as [[]|]; auto. destruct P as (k & P). exists k. now rewrite <- E.
Qed.
Lemma passable_like f f' : veq f f' -> refs_passable is_word f -> refs_passable is_word f'.
Proof. intros E H q s n p k r v V R S1 P. rewrite <- E in V, P. exact (H q s n p k r v V R S1 P). Qed.
Lemma defined_like f f' c c' : veq f f' -> wf c -> wf c' -> veq c c' -> all_defined is_word ft f c -> all_defined is_word ft f' c'.
Proof. intros Ef W W' E H q v V. rewrite <- Ef in V. destruct (H q v V) as (w & D). destruct (proj1 (den_like f f' c c' Ef W W' E) _ _ D) as (w' & D' & _). eauto. Qed.
Lemma self_like f f' c c' : veq f f' -> wf c -> wf c' -> veq c c' -> self_containing is_word ft f c -> self_containing is_word ft f' c'.
Proof.
  intros Ef W W' E (q & C). exists q. assert (forall x y, clos_trans _ (holds_ns is_word ft f c) x y -> clos_trans _ (holds_ns is_word ft f' c') x y) as G; [|now apply G].
  intros x y. induction 1 as [x y (k & D)|]; [|eapply t_trans; eassumption]. constructor. exists k. destruct (proj1 (den_like f f' c c' Ef W W' E) _ _ D) as (w' & D' & K). destruct w' as [q'|]; [|contradiction]. cbn [vlike] in K. now subst q'.
Qed.
Lemma veq_sym a b : veq a b -> veq b a. Proof. intros E q. now rewrite E. Qed.
(** Interpolating such a file in such a context *)
Lemma interpolate_like m m' c c' t p' : is_word pct = false -> veq (PMap m) (PMap m') -> plain (PMap m') -> from_mapping (PMap m') [] = Ok p' -> wf_params c -> wf_params c' -> params_prefix c' = [] -> veq c c' ->
  refs_passable is_word (PMap m) -> ~ circular is_word ft (PMap m) -> all_defined is_word ft (PMap m) c -> ~ self_containing is_word ft (PMap m) c -> interpolated is_word ft (PMap m) c t ->
  exists R, interpolate is_word ft p' c' = Ok R /\ wf_params R /\ veq t R.
Proof.
  intros PW Ef PL FM Wc Wc' Pc Ec RP NC AD NS I.
  assert (L : loadable is_word m' c' p') by (split; [exact PL|]; split; [exact FM|]; split; [exact Wc'|]; split; [exact Pc|exact (passable_like _ _ Ef RP)]).
  destruct (C48_outcomes is_word ft PW m' c' p' L) as (_ & _ & _ & O & _). destruct (proj2 O) as (R & ER).
  { split; [intros C; apply NC; exact (circular_like _ _ (veq_sym _ _ Ef) C)|]. split; [exact (defined_like _ _ _ _ Ef (proj1 Wc) (proj1 Wc') Ec AD)|].
    intros S1. apply NS. exact (self_like _ _ _ _ (veq_sym _ _ Ef) (proj1 Wc') (proj1 Wc) (veq_sym _ _ Ec) S1). }
  destruct (C48_result is_word ft PW m' c' p' R L ER) as (WR & _ & IR). exists R. split; [exact ER|]. split; [exact WR|].
  eapply interpolated_like; [exact Ef|apply Wc|apply Wc'|exact Ec|exact PW|exists m'; reflexivity|exact I|exact IR|reflexivity].
Qed.
End Same.

(** ** Loading such a file *)
Lemma clash_at_odds mid prev c c' : (forall q, view prev q = merged mid q) -> veq c c' -> (forall q, ~ at_odds (merged mid q) (view c q)) -> forall q, ~ clash prev c' q.
Proof.
  intros V E H q [(v & A & B)|(v & A & B & N)]; apply (H q); rewrite V in A; rewrite <- E in B; [left; now exists v|right; exists v; now split].
Qed.
Section P.
Variable fs : list (list str * fnode).
Hypothesis fs_wf : wf_fs fs.
Variable is_word : N -> bool.
Hypothesis pct_word : is_word pct = false.
Variable ft : N -> bool.
Variable parse : str -> res yaml.
Variable environ : list (str * str).
Hypothesis parse_wf : forall t y, parse t = Ok y -> yaml_wf y.
Notation GivesAt := (GivesAt fs is_word ft parse environ).
Notation AllGive := (AllGive fs is_word ft parse environ).
Notation inner := (inner fs is_word ft parse environ).
Notation load_file cwd := (load_file fs cwd is_word ft parse environ).
Notation tame := (tame is_word parse).

Lemma context_raw prev mid : wf_params prev -> (forall q, view prev q = merged mid q) -> plain (PMap (add_environ environ (as_dict (dictify prev)))) /\ forall q, view (PMap (add_environ environ (as_dict (dictify prev)))) q = fallback environ mid q.
Proof using.
  intros [W IP] V. assert (PD := LoadProps.dictify_plain _ W). rewrite (dictify_params _ IP) in PD. apply plain_map in PD. destruct PD as [ND F]. assert (N2 : NoDup (keys (add_environ environ (as_dict (dictify prev))))) by (now apply add_environ_nodup). split.
  - apply plain_map. split; [exact N2|]. apply Forall_forall. intros [k x] I. apply in_dfind in I; [|exact N2]. rewrite add_environ_find in I. cbn [snd]. destruct (dfind (as_dict (dictify prev)) k) eqn:D.
    + injection I as <-. apply dfind_in in D. rewrite Forall_forall in F. exact (F _ D).
    + destruct (dfind environ k); [injection I as <-; exact Logic.I|discriminate].
  - intros q. destruct q as [|k q]; [reflexivity|]. cbn [view]. rewrite add_environ_find. unfold LoadSpec.fallback.
    rewrite <- !V, <- !(dictify_view _ W). pose proof (dictify_params _ IP) as DP. set (D := as_dict (dictify prev)) in *. clearbody D. rewrite DP. cbn [view]. destruct (dfind D k); [reflexivity|]. now destruct (dfind environ k).
Qed.
Lemma context_made prev mid ctx : wf_params prev -> (forall q, view prev q = merged mid q) -> wf_params ctx -> (forall q, view ctx q = fallback environ mid q) ->
  exists c, from_mapping (PMap (add_environ environ (as_dict (dictify prev)))) [] = Ok c.
Proof using.
  intros Wp Vp Wc Vc. destruct (context_raw prev mid Wp Vp) as (PL & V). apply from_value_total. intros k K. destruct (nested_view _ _ K PL) as (q & H). rewrite V, <- Vc in H. exact (view_dotless _ _ _ (proj1 Wc) H).
Qed.
Definition loads_one cwd fuel b := fun prev inc =>
  let* path := Load.locate (resolve_strict fs cwd) b inc in let* text := read_path fs cwd path in let* loaded := inner cwd fuel text prev (Some (parent_str path)) [] in unify prev loaded [].
Lemma inner_step cwd f content prev b ns raw ym m incs mid p c own R : parse content = Ok raw -> raw = YMap ym -> string_keys raw -> to_pv raw = PMap m -> include_list raw incs ->
  foldM (loads_one cwd f b) incs prev = Ok mid -> from_mapping (PMap (ddrop m includes_key)) [] = Ok p -> from_mapping (PMap (add_environ environ (as_dict (dictify mid)))) [] = Ok c ->
  interpolate is_word ft p c = Ok own -> unify mid own ns = Ok R -> inner cwd (S f) content prev b ns = Ok R.
Proof using.
  intros Ep Er Sk Em IL F E1 E2 E3 E4. unfold LoadFsProps.inner. cbn [inner_load]. rewrite Ep. cbn [bind]. assert (validate raw = Ok tt) as -> by (apply C52_key_check; split; [now exists ym|exact Sk]). cbn [bind]. cbv zeta. rewrite Em. cbn [as_dict].
  destruct IL as (m' & Em' & IL). rewrite Em in Em'. injection Em' as <-.
  assert ((match dfind m includes_key with None => Ok prev | Some v => let* incs := includes_of v in foldM (loads_one cwd f b) incs prev end) = Ok mid) as G.
  { destruct (dfind m includes_key) as [v|]; [rewrite IL; cbn [bind]; exact F|]. rewrite IL in F. exact F. }
  refine (eq_trans (f_equal (fun z => wrap (bind z _)) G) _). cbn [bind]. rewrite E1. cbn [bind]. rewrite E2. cbn [bind]. rewrite E3. cbn [bind]. rewrite E4. reflexivity.
Qed.
Scheme GivesAt_ind2 := Induction for LoadComplete.GivesAt Sort Prop with AllGive_ind2 := Induction for LoadComplete.AllGive Sort Prop.
Lemma complete cwd before dir content after : look fs cwd = Some KDir -> Forall proper cwd -> GivesAt before dir content after ->
  forall prev b ns, wf_params prev -> (forall q, view prev q = merged before q) -> same_base fs cwd b dir ->
  exists n R, (forall fuel, n <= fuel -> inner cwd fuel content prev b ns = Ok R) /\ wf_params R /\ params_prefix R = ns /\ forall q, view R q = merged after q.
Proof using fs_wf pct_word parse_wf.
  intros C P H. refine (GivesAt_ind2 fs is_word ft parse environ (fun before dir content after _ => forall prev b ns, wf_params prev -> (forall q, view prev q = merged before q) -> same_base fs cwd b dir ->
      exists n R, (forall fuel, n <= fuel -> inner cwd fuel content prev b ns = Ok R) /\ wf_params R /\ params_prefix R = ns /\ forall q, view R q = merged after q)
    (fun before dir incs after _ => forall prev b, wf_params prev -> (forall q, view prev q = merged before q) -> same_base fs cwd b dir ->
      exists n R, (forall fuel, n <= fuel -> foldM (loads_one cwd fuel b) incs prev = Ok R) /\ wf_params R /\ forall q, view R q = merged after q) _ _ _ before dir content after H); clear H before dir content after.
  - intros before dir content raw incs mid own ctx c Ep (ym & Er) Sk IL _ IH OW DL RP Wx Px Vx NC AD NS Wc IT NO prev b ns Wp Vp B. destruct (IH prev b Wp Vp B) as (n & mp & Fm & Wm & Vm). clear IH.
    assert (Wy := parse_wf _ _ Ep). assert (PL := to_pv_plain _ Wy Sk).
    assert (exists m, to_pv raw = PMap m) as (m & Em). { subst raw. inversion Sk as [| |? S']; subst. rewrite to_pv_map by (intros k v I; now apply (S' k v)). eauto. }
    assert (PL' := PL). rewrite Em in PL'. assert (OP := own_params_drop m raw Em PL').
    assert (Ef : veq (PMap own) (PMap (ddrop m includes_key))) by (intros q; rewrite (proj2 OW q), (proj2 OP q); reflexivity).
    destruct (from_value_total (PMap (ddrop m includes_key))) with (pre := @nil str) as (p' & Ep').
    { intros k K. destruct (nested_view _ _ K (proj1 OP)) as (q & V). rewrite <- Ef in V. exact (DL q k V). }
    destruct (context_made mp mid ctx Wm Vm Wx Vx) as (cx & Ec). destruct (context_view environ mp mid cx Wm Vm Ec) as (Wcx & Pcx & Vcx).
    assert (Ex : veq ctx cx) by (intros q; rewrite Vx, Vcx; reflexivity).
    destruct (interpolate_like is_word ft own (ddrop m includes_key) ctx cx c p' pct_word Ef (proj1 OP) Ep' Wx Wcx Pcx Ex RP NC AD NS IT) as (R0 & E0 & W0 & V0).
    assert (U := unify_correct mp R0 ns Wm W0). destruct (unify mp R0 ns) as [R|] eqn:EU.
    + destruct U as (WR & PR & VR & _). exists (Datatypes.S n), R. split; [|split; [exact WR|split; [exact PR|]]].
      * intros [|f] L; [inversion L|]. apply le_S_n in L. exact (inner_step cwd f content prev b ns raw ym m incs mp p' cx R0 R Ep Er Sk Em IL (Fm f L) Ep' Ec E0 EU).
      * intros q. rewrite VR, merged_snoc, Vm, V0. reflexivity.
    + exfalso. destruct U as (_ & q & U). exact (clash_at_odds mid mp c R0 Vm V0 NO q U).
  - intros before dir prev b Wp Vp B. exists 0, prev. split; [reflexivity|]. split; [exact Wp|exact Vp].
  - intros before dir f q text mid fs_ after PT TX _ IH1 _ IH2 prev b Wp Vp B. destruct (include_spec fs cwd b dir f fs_wf C P B) as (I1 & I2). destruct (I2 q text PT TX) as (path & El & Er). destruct (I1 path text El Er) as (q' & PT' & TX' & B').
    assert (q' = q) by (exact (points_fun _ _ _ _ _ PT' PT)). subst q'. assert (same_base fs cwd (Some (parent_str path)) (Some (tl q))) as B2 by (exists (tl q); split; [reflexivity|exact B']).
    destruct (IH1 prev (Some (parent_str path)) [] Wp Vp B2) as (n1 & R1 & E1 & W1 & _ & V1). assert (E1' := E1 n1 (le_n n1)).
    destruct (load_sound is_word ft (read_path fs cwd) parse (resolve_strict fs cwd) parent_str environ parse_wf n1 text prev (Some (parent_str path)) [] R1 before Wp Vp E1') as (_ & _ & _ & _ & _ & _ & X).
    destruct (unify_of_ext prev R1 [] Wp W1 X) as (r & EU & Wr & Vr). destruct (IH2 r b Wr (fun x => eq_trans (Vr x) (V1 x)) B) as (n2 & R2 & E2 & W2 & V2).
    exists (Nat.max n1 n2), R2. split; [|split; [exact W2|exact V2]]. intros fuel L. cbn [foldM]. unfold loads_one at 1. rewrite El. cbn [bind]. rewrite Er. cbn [bind].
    rewrite (E1 fuel (Nat.le_trans _ _ _ (Nat.le_max_l n1 n2) L)). cbn [bind]. rewrite EU. cbn [bind]. exact (E2 fuel (Nat.le_trans _ _ _ (Nat.le_max_r n1 n2) L)).
Qed.
(** The other way round: what is loaded has a meaning. *)
Definition all_tame : Prop := forall q t, text_at fs q t -> tame t.
Lemma sound cwd (all : all_tame) : look fs cwd = Some KDir -> Forall proper cwd -> forall fuel content prev b dir ns R before, tame content -> wf_params prev -> (forall q, view prev q = merged before q) -> same_base fs cwd b dir ->
  inner cwd fuel content prev b ns = Ok R -> exists after, GivesAt before dir content after /\ wf_params R /\ params_prefix R = ns /\ (forall q, view R q = merged after q) /\ ext prev R.
Proof using fs_wf pct_word parse_wf.
  intros C P. induction fuel as [|f IH]; intros content prev b dir ns R before TM Wp Vp B E; [discriminate|]. unfold LoadFsProps.inner in E. cbn [inner_load] in E. apply wrap_ok in E.
  apply bind_ok in E. destruct E as (raw & Ep & E). apply bind_ok in E. destruct E as ([] & Ev & E). cbv zeta in E.
  apply C52_key_check in Ev. destruct Ev as [(ym & Er) Sk]. assert (Wy := parse_wf _ _ Ep). assert (PL := to_pv_plain _ Wy Sk).
  assert (exists m, to_pv raw = PMap m) as (m & Em). { subst raw. inversion Sk as [| |? S']; subst. rewrite to_pv_map by (intros k v I; now apply (S' k v)). eauto. }
  rewrite Em in E, PL. cbn [as_dict] in E. apply bind_ok in E. destruct E as (mp & Eprev & E).
  assert (exists incs mid, include_list raw incs /\ AllGive before dir incs mid /\ wf_params mp /\ (forall q, view mp q = merged mid q) /\ ext prev mp) as (incs & mid & IL & Inc & Wm & Vm & Xp).
  { destruct (dfind m includes_key) as [v|] eqn:D.
    - apply bind_ok in Eprev. destruct Eprev as (incs & Ei & Eprev). exists incs.
      assert (include_list raw incs) as IL by (exists m; split; [assumption|]; now rewrite D).
      clear D Ei E TM Ep. assert (forall incs ctx before, wf_params ctx -> (forall q, view ctx q = merged before q) -> foldM (loads_one cwd f b) incs ctx = Ok mp ->
        exists mid, AllGive before dir incs mid /\ wf_params mp /\ (forall q, view mp q = merged mid q) /\ ext ctx mp) as L.
      { clear Eprev IL incs Wp Vp. induction incs as [|i incs IHi]; intros ctx before' WC VC E.
        - injection E as <-. exists before'. split; [constructor|]. split; [assumption|]. split; [assumption|]. apply ext_refl.
        - cbn [foldM] in E. apply bind_ok in E. destruct E as (p1 & E1 & E). unfold loads_one in E1. apply bind_ok in E1. destruct E1 as (path & El & E1). apply bind_ok in E1. destruct E1 as (text & Et & E1).
          apply bind_ok in E1. destruct E1 as (loaded & Ed & E1). destruct (proj1 (include_spec fs cwd b dir i fs_wf C P B) path text El Et) as (q & PT & TX & B').
          assert (same_base fs cwd (Some (parent_str path)) (Some (tl q))) as B2 by (exists (tl q); split; [reflexivity|exact B']).
          destruct (IH _ _ _ _ _ _ _ (all q text TX) WC VC B2 Ed) as (mid1 & G1 & Wl & _ & Vl & Xl).
          destruct (unify_of_ext ctx loaded [] WC Wl Xl) as (r & Er1 & Wr & Vr). rewrite E1 in Er1. injection Er1 as <-.
          destruct (IHi p1 mid1) as (mid2 & I2 & W2 & V2 & X2); [assumption|intros x; now rewrite Vr|assumption|].
          exists mid2. split; [exact (all_one fs is_word ft parse environ before' dir i q text mid1 incs mid2 PT TX G1 I2)|]. split; [assumption|]. split; [assumption|]. eapply ext_trans; [|exact X2].
          intros x. rewrite Vr. specialize (Xl x). unfold clash in *. now rewrite Vr. }
      destruct (L incs prev before Wp Vp Eprev) as (mid & H). exists mid. split; [exact IL|exact H].
    - injection Eprev as <-. exists [], before. split; [exists m; split; [assumption|]; now rewrite D|]. split; [constructor|]. split; [assumption|]. split; [assumption|]. apply ext_refl. }
  apply bind_ok in E. destruct E as (p & Efm & E). apply bind_ok in E. destruct E as (c & Ec & E). apply bind_ok in E. destruct E as (own & Eo & E).
  destruct (context_view _ _ _ _ Wm Vm Ec) as (Wc & Pc & Vc). assert (OP := own_params_drop m raw Em PL). assert (RP := TM raw _ Ep OP).
  assert (L : loadable is_word (ddrop m includes_key) c p) by (split; [exact (proj1 OP)|]; split; [exact Efm|]; split; [exact Wc|]; split; [exact Pc|exact RP]).
  destruct (C48_result is_word ft pct_word _ _ _ _ L Eo) as (Wo & _ & IT). destruct (C48_outcomes is_word ft pct_word _ _ _ L) as (_ & _ & _ & O & _). destruct (proj1 O (ex_intro _ own Eo)) as (NC & AD & NS).
  pose proof (unify_correct mp own ns Wm Wo) as U. rewrite E in U. destruct U as (WR & PR & VR & NK).
  exists (mid ++ [own]). split; [|split; [exact WR|split; [exact PR|split; [|exact (ext_trans _ _ _ Xp (unify_ext _ _ _ _ Wm Wo E))]]]].
  - apply (gives_at fs is_word ft parse environ before dir content raw incs mid (ddrop m includes_key) c own Ep (ex_intro _ ym Er) Sk IL Inc OP); try assumption.
    + intros q k V. assert (Wf : wf p) by exact (from_value_gives_wf _ (plain_mixed _ (proj1 OP)) _ _ Efm). apply (view_dotless p q k Wf). now rewrite (from_value_view _ _ _ Efm).
    + intros q [(v & A & A')|(v & A & A' & A2)]; apply (NK q); rewrite <- Vm in A; [left; now exists v|right; exists v; now split].
  - intros q. rewrite VR, merged_snoc, Vm. reflexivity.
Qed.

(** ** The theorems *)
(** C127: a file that has a meaning is loaded (given enough stack), and the result is its meaning. *)
Theorem C127_complete : forall cwd s ic ns q t cs, look fs cwd = Some KDir -> Forall proper cwd -> wf_params (given ic) -> leads fs cwd s q -> text_at fs q t ->
  GivesAt [given ic] (Some (tl q)) t cs ->
  exists n R, (forall fuel, n <= fuel -> load_file cwd fuel s None ic ns = Ok R) /\ wf_params R /\ params_prefix R = ns /\ forall x, view R x = merged cs x.
Proof using fs_wf pct_word parse_wf.
  intros cwd s ic ns q t cs C P W L T G. assert (B : same_base fs cwd (Some (parent_str s)) (Some (tl q))) by (exists (tl q); split; [reflexivity|]; destruct T as (b & u & T & _); exact (parent_ok fs cwd s q b fs_wf C L T)).
  destruct (complete cwd _ _ _ _ C P G (given ic) (Some (parent_str s)) ns W (fun x => eq_sym (merged_one (given ic) x)) B) as (n & R & E & H). exists n, R. split; [|exact H].
  intros fuel Le. rewrite load_inner. rewrite (proj2 (read_path_spec fs cwd s t)) by (exists q; now split). cbn [bind]. exact (E fuel Le).
Qed.
(** ... and the same for a string, where relative includes have no meaning. *)
Theorem C127_complete_string : forall cwd content ctx ns cs, look fs cwd = Some KDir -> Forall proper cwd -> wf_params ctx -> GivesAt [ctx] None content cs ->
  exists n R, (forall fuel, n <= fuel -> load_text fs cwd is_word ft parse environ fuel content ctx ns = Ok R) /\ wf_params R /\ params_prefix R = ns /\ forall x, view R x = merged cs x.
Proof using fs_wf pct_word parse_wf.
  intros cwd content ctx ns cs C P W G. destruct (complete cwd _ _ _ _ C P G ctx None ns W (fun x => eq_sym (merged_one ctx x)) eq_refl) as (n & R & E & H). exists n, R. split; [exact E|exact H].
Qed.
(** C127: with such references only, only files with a meaning are loaded ... *)
Theorem C127_sound : forall cwd fuel s ic ns R, look fs cwd = Some KDir -> Forall proper cwd -> wf_params (given ic) -> all_tame -> load_file cwd fuel s None ic ns = Ok R ->
  exists q t cs, leads fs cwd s q /\ text_at fs q t /\ GivesAt [given ic] (Some (tl q)) t cs /\ forall x, view R x = merged cs x.
Proof using fs_wf pct_word parse_wf.
  intros cwd fuel s ic ns R C P W A E. rewrite load_inner in E. apply bind_ok in E. destruct E as (t & Er & E). apply read_path_spec in Er. destruct Er as (q & L & T). exists q, t.
  assert (B : same_base fs cwd (Some (parent_str s)) (Some (tl q))) by (exists (tl q); split; [reflexivity|]; destruct T as (b & u & T & _); exact (parent_ok fs cwd s q b fs_wf C L T)).
  destruct (sound cwd A C P fuel t (given ic) _ _ ns R [given ic] (A q t T) W (fun x => eq_sym (merged_one (given ic) x)) B E) as (cs & G & _ & _ & V & _). exists cs. auto.
Qed.
Theorem C127_sound_string : forall cwd fuel content ctx ns R, look fs cwd = Some KDir -> Forall proper cwd -> wf_params ctx -> all_tame -> tame content ->
  load_text fs cwd is_word ft parse environ fuel content ctx ns = Ok R -> exists cs, GivesAt [ctx] None content cs /\ forall x, view R x = merged cs x.
Proof using fs_wf pct_word parse_wf.
  intros cwd fuel content ctx ns R C P W A TM E. destruct (sound cwd A C P fuel content ctx None None ns R [ctx] TM W (fun x => eq_sym (merged_one ctx x)) eq_refl E) as (cs & G & _ & _ & V & _). exists cs. auto.
Qed.
(** ... and the others raise IOError, however much stack there is. *)
Theorem C127_refused : forall cwd fuel s ic ns q t, look fs cwd = Some KDir -> Forall proper cwd -> wf_params (given ic) -> all_tame -> fuel <> 0 -> leads fs cwd s q -> text_at fs q t ->
  (forall cs, ~ GivesAt [given ic] (Some (tl q)) t cs) -> load_file cwd fuel s None ic ns = Raise IOError.
Proof using fs_wf pct_word parse_wf.
  intros cwd fuel s ic ns q t C P W A F L T H. destruct (load_file cwd fuel s None ic ns) as [R|e] eqn:E.
  - exfalso. destruct (C127_sound _ _ _ _ _ _ C P W A E) as (q' & t' & cs & L' & T' & G & _). assert (q' = q) by exact (leads_fun _ _ _ _ _ L' L). subst q'. assert (t' = t) by exact (text_fun fs _ _ _ T' T). subst t'. exact (H cs G).
  - f_equal. rewrite load_inner in E. rewrite (proj2 (read_path_spec fs cwd s t)) in E by (exists q; now split). cbn [bind] in E. exact (C51_load_error _ _ _ _ _ _ _ _ _ _ _ _ _ F E).
Qed.
(** The meaning is unique. *)
Theorem C127_unique : forall ctx dir content cs cs', wf_params ctx -> (forall d, dir = Some d -> Forall proper d /\ look fs d = Some KDir) -> GivesAt [ctx] dir content cs -> GivesAt [ctx] dir content cs' ->
  forall x, merged cs x = merged cs' x.
Proof using fs_wf pct_word parse_wf.
  intros ctx dir content cs cs' W D G G' x. assert (C : look fs [] = Some KDir) by reflexivity. assert (P : Forall proper (@nil str)) by constructor.
  assert (exists b, same_base fs [] b dir) as (b & B).
  { destruct dir as [d|]; [|exists None; reflexivity]. destruct (D d eq_refl) as (Pd & Ld). exists (Some (path_str d)), d. split; [reflexivity|]. split; [|split; [|exact Ld]].
    - assert (L : leads fs [] (path_str d) d) by (apply path_str_leads; [exact fs_wf|exact Pd|]; intros H; pose proof (eq_trans (eq_sym H) Ld) as K; discriminate K). apply L.
    - rewrite (parts_path_str d Pd). apply os_strict; [|intros H; pose proof (eq_trans (eq_sym H) Ld) as K; discriminate K].
      assert (L : leads fs [] (path_str d) d) by (apply path_str_leads; [exact fs_wf|exact Pd|]; intros H; pose proof (eq_trans (eq_sym H) Ld) as K; discriminate K).
      apply start_leads in L; [|apply has_nul_spec, L]. rewrite (parts_path_str d Pd) in L. exact L. }
  destruct (complete [] _ _ _ _ C P G ctx b [] W (fun x => eq_sym (merged_one ctx x)) B) as (n & R & E & _ & _ & V).
  destruct (complete [] _ _ _ _ C P G' ctx b [] W (fun x => eq_sym (merged_one ctx x)) B) as (n' & R' & E' & _ & _ & V').
  assert (K := E _ (Nat.le_max_l n n')). rewrite (E' _ (Nat.le_max_r n n')) in K. injection K as ->. now rewrite <- V, <- V'.
Qed.
End P.

(** ** The files of LoadFsProps.v *)
Lemma own_like raw own own' : own_parameters raw own -> own_parameters raw own' -> veq (PMap own') (PMap own).
Proof. intros O O' q. rewrite (proj2 O q), (proj2 O' q). reflexivity. Qed.
Lemma tame_map ym own m : own_parameters (YMap ym) own -> to_pv (YMap ym) = PMap m -> plain (PMap m) -> pass_check word_ascii (ddrop m includes_key) = true -> refs_passable word_ascii (PMap own).
Proof.
  intros O E PL H. assert (O' := own_params_drop m _ E PL). apply (passable_like word_ascii _ _ (own_like _ _ _ O O')). apply pass_check_ok; [reflexivity|exact (proj1 O')|exact H].
Qed.
Example C127_tame_witness : all_tame wfs word_ascii wparse.
Proof.
  intros q t _ raw own E O. unfold wparse in E. destruct (dfind wyaml t) as [z|] eqn:D; [|discriminate]. injection E as ->. apply dfind_in in D. cbn [wyaml ex_yaml In] in D.
  repeat (destruct D as [D|D]; [injection D as _ <-; try solve [refine (tame_map _ _ _ O eq_refl _ _); [vm_compute; plain_tac|vm_compute; reflexivity]]|]); [|contradiction].
  intros x s n p k r v V R. rewrite (proj2 O) in V. destruct x as [|k1 x]; [discriminate|]. destruct (str_eqb k1 includes_key); [discriminate|]. destruct x; discriminate.
Qed.
(** main.yaml has a meaning (two includes, one of them with an include; references to what they define); a file including itself has none. *)
Example C127_witness : exists n R cs,
  leads wfs (at_p []) !!"main.yaml" (at_p [!!"main.yaml"]) /\ text_at wfs (at_p [!!"main.yaml"]) !!"main" /\ GivesAt wfs word_ascii ft1 wparse [] [PParams [] []] (Some (at_p [])) !!"main" cs /\
  (forall fuel, n <= fuel -> load_file wfs (at_p []) word_ascii ft1 wparse [] fuel !!"main.yaml" None None [] = Ok R) /\ dictify R = PMap [(!!"top", PStr !!"/data"); (!!"x", PInt 3); (!!"sub", PMap [(!!"z", PBool true); (!!"y", PInt 3)]); (!!"root", PStr !!"/data/a"); (!!"HOME", PStr !!"home-of-b"); (!!"out", PStr !!"/data/a/home-of-b")] /\
  merged cs [!!"out"] = Some (Leaf (PStr !!"/data/a/home-of-b")).
Proof.
  assert (C : look wfs (at_p []) = Some KDir) by reflexivity. assert (P : Forall proper (at_p [])) by (repeat constructor; vm_compute; intuition discriminate). assert (W : wf_params (given None)) by (split; [repeat split; constructor|reflexivity]).
  destruct (wload (at_p []) !!"main.yaml") as [R|e] eqn:E; [|vm_compute in E; discriminate E]. assert (E' := E).
  destruct (C127_sound wfs wfs_wf word_ascii eq_refl ft1 wparse [] C91_parse_witness (at_p []) 5 !!"main.yaml" None [] R C P W C127_tame_witness E) as (q & t & cs & L & T & G & V).
  assert (L' := proj1 (proj2 (proj2 C91_witness))). assert (q = at_p [!!"main.yaml"]) by exact (leads_fun _ _ _ _ _ L L'). subst q. assert (t = !!"main") by (apply (wfs_text (at_p [!!"main.yaml"])); [reflexivity..|assumption]). subst t.
  destruct (C127_complete wfs wfs_wf word_ascii eq_refl ft1 wparse [] C91_parse_witness (at_p []) !!"main.yaml" None [] _ _ cs C P W L T G) as (n & R' & F & _ & _ & V').
  assert (R' = R).
  { assert (E5 := F (Nat.max n 5) (Nat.le_max_l _ _)). rewrite load_inner in E5. unfold wload in E. rewrite load_inner in E. destruct (read_path wfs (at_p []) !!"main.yaml") as [u|]; [|discriminate E]. cbn [bind] in E, E5.
    assert (K := inner_mono _ _ _ _ _ _ _ _ _ _ _ _ _ E (Nat.le_max_r n 5)). rewrite E5 in K. now injection K. }
  subst R'. vm_compute in E'. injection E' as E'. exists n, R, cs. split; [exact L'|]. split; [exact T|]. split; [exact G|]. split; [exact F|]. split; [rewrite <- E'; reflexivity|]. rewrite <- V, <- E'. reflexivity.
Qed.
Example C127_refused_witness : forall cs, ~ GivesAt wfs word_ascii ft1 wparse [] [PParams [] []] (Some (at_p [])) !!"x" cs.
Proof.
  intros cs G. assert (C : look wfs (at_p []) = Some KDir) by reflexivity. assert (P : Forall proper (at_p [])) by (repeat constructor; vm_compute; intuition discriminate). assert (W : wf_params (given None)) by (split; [repeat split; constructor|reflexivity]).
  assert (L : leads wfs (at_p []) !!"x.yaml" (at_p [!!"x.yaml"])) by (split; [vm_compute; intuition discriminate|]; right; split; [discriminate|]; vm_compute py_split; op).
  assert (T : text_at wfs (at_p [!!"x.yaml"]) !!"x") by (apply ascii_text; reflexivity).
  destruct (C127_complete wfs wfs_wf word_ascii eq_refl ft1 wparse [] C91_parse_witness (at_p []) !!"x.yaml" None [] _ _ cs C P W L T G) as (n & R & F & _).
  destruct C91_cycle_witness as (I1 & I2 & _).
  assert (K := C91_cycle wfs wfs_wf word_ascii ft1 wparse [] C91_parse_witness (at_p []) (Datatypes.S n) !!"x.yaml" None [] _ (at_p [!!"x.yaml"]) C P W (Nat.neq_succ_0 n) L (ex_intro _ _ T) (rt_refl _ _ _) (t_trans _ _ _ _ _ (t_step _ _ _ _ I1) (t_step _ _ _ _ I2))).
  rewrite (F (Datatypes.S n) (Nat.le_succ_diag_r n)) in K. discriminate K.
Qed.
Print Assumptions C127_complete.
Print Assumptions C127_complete_string.
Print Assumptions C127_sound.
Print Assumptions C127_sound_string.
Print Assumptions C127_refused.
Print Assumptions C127_unique.
