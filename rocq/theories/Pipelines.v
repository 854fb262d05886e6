(** * Property C134: files that are added do not change what was there to be read; scripts in a row *)
From Coq Require Import Sorted.
From Verif Require Import Prelude PyStr SortLib TextLib Utf8 Order Range Params ParamsSpec ParamsProofs ParamsUnify ParamsPairs ParamsProps ParamsGet ParamsGetProps ParamsEval ParamsEvalProps Interp InterpSpec InterpProofs InterpWf InterpProps Load LoadSpec LoadProps
  InterpLoop InterpExpand SubNamespaces Fs FsProofs FsProps PathLists PathListsProps Decimals Io IoProps KeyValue KeyValueProps KvParams KvParamsProps Scripts ScriptsProps OsPath OsPathSpec OsPathProofs Mains MainsProofs MainsProps LoadFs LoadFsSpec LoadFsProps LoadComplete Entry EntryProps Command CommandProps CommandMains CommandFiles.

(** ** Specification *)
(** Whatever is in [fs] is in [fs'] too: directories are there, files with the same contents; there may be more. *)
Definition added (fs fs' : list (list str * fnode)) : Prop := forall q k, look fs q = Some k -> look fs' q = Some k.
(** The same, and none of the places [outs] is in use in [fs]. *)
Definition part_without (outs : list (list str)) (fs fs' : list (list str * fnode)) : Prop := forall q k, look fs q = Some k -> look fs' q = Some k /\ ~ In q outs.

Section A.
Variables fs fs' : list (list str * fnode).
Hypothesis Ad : added fs fs'.
Lemma opens_added q cs r : opens fs q cs r -> opens fs' q cs r.
Proof. induction 1; [constructor|constructor; assumption|apply op_up; [now apply Ad|assumption]|apply op_into; [assumption|assumption|assumption|now apply Ad|assumption]]. Qed.
Lemma leads_added cwd s q : leads fs cwd s q -> leads fs' cwd s q.
Proof. intros (N & [(A & H)|(A & H)]); (split; [assumption|]); [left|right]; (split; [assumption|]); now apply opens_added. Qed.
Lemma text_added q t : text_at fs q t -> text_at fs' q t.
Proof. intros (b & u & L & E & T). exists b, u. split; [now apply Ad|auto]. Qed.
Lemma resolves_added q cs r : resolves fs q cs r -> resolves fs' q cs r.
Proof.
  induction 1 as [|q c cs q' H R IH|q cs q' R IH|q c cs q' N1 N2 N3 L R IH]; [constructor|now constructor|now apply rs_up|]. apply rs_into; try assumption. destruct (look fs (c :: q)) as [k|] eqn:E; [|congruence]. rewrite (Ad _ _ E). discriminate.
Qed.
Lemma points_added dir f q : points fs dir f q -> points fs' dir f q.
Proof. intros (N & [(A & H)|(A & d & D & H)]); (split; [assumption|]); [left; split; [assumption|now apply opens_added]|right; split; [assumption|exists d; split; [assumption|now apply resolves_added]]]. Qed.
Lemma os_walk_added cs : forall q r, os_walk fs q cs = Ok r -> os_walk fs' q cs = Ok r.
Proof.
  induction cs as [|c cs IH]; intros q r E; [exact E|]. cbn [os_walk] in *. destruct (look fs q) as [[]|] eqn:L; try discriminate. rewrite (Ad _ _ L). destruct (str_eqb c !!".."); auto.
Qed.
Lemma strict_added cs : forall q r, strict_walk fs q cs = Ok r -> strict_walk fs' q cs = Ok r.
Proof.
  induction cs as [|c cs IH]; intros q r E; [exact E|]. cbn [strict_walk] in *. destruct (str_eqb c !!".."); [auto|]. destruct (look fs (c :: q)) as [k|] eqn:L; [rewrite (Ad _ _ L); auto|]. destruct (look fs q) as [[]|]; discriminate.
Qed.
Lemma read_path_added cwd s t : read_path fs cwd s = Ok t -> read_path fs' cwd s = Ok t.
Proof.
  unfold read_path. destruct (has_nul s); [discriminate|]. intros E. apply bind_ok in E. destruct E as (q & E1 & E). rewrite (os_walk_added _ _ _ E1). cbn [bind]. destruct (look fs q) as [k|] eqn:L; [|discriminate]. now rewrite (Ad _ _ L).
Qed.
Lemma resolve_strict_added cwd b f p : resolve_strict fs cwd b f = Ok p -> resolve_strict fs' cwd b f = Ok p.
Proof. unfold resolve_strict. destruct (has_nul b || has_nul f); intros E; [apply bind_ok in E; destruct E as (? & _ & E); discriminate|]. apply bind_ok in E. destruct E as (q & E1 & E). rewrite (strict_added _ _ _ E1). exact E. Qed.
Lemma locate_added cwd b f p : Load.locate (resolve_strict fs cwd) b f = Ok p -> Load.locate (resolve_strict fs' cwd) b f = Ok p.
Proof. unfold Load.locate. destruct (is_abs f); [auto|]. destruct b; [apply resolve_strict_added|discriminate]. Qed.

Variables (is_word ft : N -> bool) (parse : str -> res yaml) (environ : list (str * str)) (cwd : list str).
Lemma inner_added fuel : forall content ctx b ns R, inner fs is_word ft parse environ cwd fuel content ctx b ns = Ok R -> inner fs' is_word ft parse environ cwd fuel content ctx b ns = Ok R.
Proof.
  induction fuel as [|f IH]; intros content ctx b ns R E; [discriminate|]. unfold inner in *. cbn [inner_load] in *. unfold wrap in *.
  match type of E with match ?x with _ => _ end = _ => destruct x as [r|] eqn:X; [|discriminate] end. injection E as ->.
  match goal with |- match ?y with _ => _ end = _ => enough (y = Ok R) as -> by reflexivity end. revert X. destruct (parse content) as [raw|]; [|discriminate]. cbn [bind]. destruct (validate raw); [|discriminate]. cbn [bind]. cbv zeta.
  destruct (dfind (as_dict (to_pv raw)) includes_key) as [v|]; [|auto]. destruct (includes_of v) as [incs|]; [|discriminate]. cbn [bind]. intros X. apply bind_ok in X. destruct X as (prev & X1 & X).
  match goal with |- bind ?y _ = _ => assert (y = Ok prev) as -> end; [|exact X]. eapply foldM_mono; [|exact X1]. clear - IH Ad. intros c i r E. cbv beta in *. apply bind_ok in E. destruct E as (p & E0 & E). rewrite (locate_added _ _ _ _ E0). cbn [bind].
  apply bind_ok in E. destruct E as (t & Et & E). rewrite (read_path_added _ _ _ Et). cbn [bind]. apply bind_ok in E. destruct E as (l & E1 & E). rewrite (IH _ _ _ _ _ E1). exact E.
Qed.
(** C134: a parameter file that has been loaded can be loaded again when files or directories have been added, with the same result - whatever they are called; so can a text. *)
Theorem C134_load : forall fuel s ctx ic ns R, load_file fs cwd is_word ft parse environ fuel s ctx ic ns = Ok R -> load_file fs' cwd is_word ft parse environ fuel s ctx ic ns = Ok R.
Proof.
  intros fuel s ctx ic ns R E. unfold load_file, load in *. apply bind_ok in E. destruct E as (i & -> & E). cbn [bind]. apply bind_ok in E. destruct E as (c & -> & E). cbn [bind]. apply bind_ok in E. destruct E as (t & E1 & E).
  rewrite (read_path_added _ _ _ E1). cbn [bind]. exact (inner_added fuel t c (Some (parent_str s)) ns R E).
Qed.
Theorem C134_load_text : forall fuel t ctx ns R, load_text fs cwd is_word ft parse environ fuel t ctx ns = Ok R -> load_text fs' cwd is_word ft parse environ fuel t ctx ns = Ok R.
Proof. intros fuel t ctx ns R E. exact (inner_added fuel t ctx None ns R E). Qed.
Lemma gives_added before dir content after : GivesAt fs is_word ft parse environ before dir content after -> GivesAt fs' is_word ft parse environ before dir content after.
Proof.
  intros H. refine (GivesAt_ind2 fs is_word ft parse environ (fun before dir content after _ => GivesAt fs' is_word ft parse environ before dir content after) (fun before dir incs after _ => AllGive fs' is_word ft parse environ before dir incs after) _ _ _ _ _ _ _ H).
  - intros before0 dir0 content0 raw incs mid own ctx c P1 P2 P3 P4 A IA. intros. exact (gives_at fs' is_word ft parse environ before0 dir0 content0 raw incs mid own ctx c P1 P2 P3 P4 IA ltac:(assumption) ltac:(assumption) ltac:(assumption) ltac:(assumption) ltac:(assumption) ltac:(assumption) ltac:(assumption) ltac:(assumption) ltac:(assumption) ltac:(assumption) ltac:(assumption) ltac:(assumption)).
  - constructor.
  - intros b d f q text mid fs_ af P T G IG A IA. exact (all_one fs' is_word ft parse environ b d f q text mid fs_ af (points_added _ _ _ P) (text_added _ _ T) IG IA).
Qed.
(** C134: what a parameter file means (C127, C128) it still means. *)
Theorem C134_meaning : forall q F, file_gives is_word ft parse environ fs q F -> file_gives is_word ft parse environ fs' q F.
Proof. intros q F (t & cs & T & G & H). exists t, cs. split; [now apply text_added|]. split; [now apply gives_added|exact H]. Qed.
(** C134: the files and directories, and the lists and maps of paths, that parameters name are still found. *)
Theorem C134_getters : forall p name, 
  (forall q, existing_file cwd p name fs = Ok q -> existing_file cwd p name fs' = Ok q) /\ (forall q, existing_directory cwd p name fs = Ok q -> existing_directory cwd p name fs' = Ok q) /\
  (forall q, optional_existing_file cwd p name fs = Ok q -> optional_existing_file cwd p name fs' = Ok q) /\ (forall q, optional_existing_directory cwd p name fs = Ok q -> optional_existing_directory cwd p name fs' = Ok q) /\
  (forall rel l, path_list_from_file cwd p name rel fs = Ok l -> path_list_from_file cwd p name rel fs' = Ok l) /\ (forall rel l, path_map_from_file cwd p name rel fs = Ok l -> path_map_from_file cwd p name rel fs' = Ok l).
Proof.
  intros p name. assert (F : forall q, existing_file cwd p name fs = Ok q -> existing_file cwd p name fs' = Ok q).
  { intros q E. unfold existing_file in *. apply bind_ok in E. destruct E as (q' & -> & E). cbn [bind]. unfold exists_, is_file in *. destruct (look fs q') as [k|] eqn:L; [|discriminate]. rewrite (Ad _ _ L). exact E. }
  assert (D : forall q, existing_directory cwd p name fs = Ok q -> existing_directory cwd p name fs' = Ok q).
  { intros q E. unfold existing_directory in *. apply bind_ok in E. destruct E as (q' & -> & E). cbn [bind]. unfold exists_, is_dir in *. destruct (look fs q') as [k|] eqn:L; [|discriminate]. rewrite (Ad _ _ L). exact E. }
  assert (T : forall q t, read_text fs q = Ok t -> read_text fs' q = Ok t) by (intros q t E; unfold read_text in *; destruct (look fs q) as [k|] eqn:L; [|discriminate]; now rewrite (Ad _ _ L)).
  split; [exact F|]. split; [exact D|].
  split; [intros q E; unfold optional_existing_file, optional_ro in *; destruct (Params.contains p name); [|assumption]; apply bind_ok in E; destruct E as (x & E1 & E); now rewrite (F _ E1)|].
  split; [intros q E; unfold optional_existing_directory, optional_ro in *; destruct (Params.contains p name); [|assumption]; apply bind_ok in E; destruct E as (x & E1 & E); now rewrite (D _ E1)|].
  split; intros rel l E.
  - unfold path_list_from_file in *. apply bind_ok in E. destruct E as (raw & -> & E). cbn [bind]. destruct raw; try exact E. apply bind_ok in E. destruct E as (f & E1 & E). rewrite (F _ E1). cbn [bind]. apply bind_ok in E. destruct E as (t & E2 & E). rewrite (T _ _ E2). exact E.
  - unfold path_map_from_file in *. apply bind_ok in E. destruct E as (f & E1 & E). rewrite (F _ E1). cbn [bind]. apply bind_ok in E. destruct E as (t & E2 & E). rewrite (T _ _ E2). exact E.
Qed.
End A.

(** What a script leaves: only its outputs are written. *)
Lemma only_writes_added fs0 fs fs' dir outs : part_without outs fs0 fs -> only_writes fs fs' dir outs -> unblocked fs dir -> added fs0 fs'.
Proof.
  intros P OW U q k L. destruct (P q k L) as (L1 & N). destruct (OW q N) as (O1 & O2). destruct (at_or_below q dir) eqn:B.
  - apply at_or_below_spec in B. rewrite (O1 B). destruct k; try reflexivity; exfalso; apply (U q B); eexists; (split; [exact L1|discriminate]).
  - rewrite O2; [exact L1|]. intros B2. apply at_or_below_spec in B2. congruence.
Qed.
Lemma writes_all_added fs0 fs fs' outs : part_without outs fs0 fs -> writes_all fs fs' outs -> added fs0 fs'.
Proof. intros P WA q k L. destruct (P q k L) as (L1 & N). destruct (WA q N) as [E|(E & _)]; [now rewrite E|congruence]. Qed.

(** What the runs of the scripts do to the files (C84-C88, C95, C128), one after the other: [outs] are the outputs of all of them. *)
Inductive runs : list (list str * fnode) -> list (list str) -> list (list str * fnode) -> Prop :=
| runs_none fs : runs fs [] fs
| runs_more fs1 outs1 fs2 dir outs fs3 : runs fs1 outs1 fs2 -> (only_writes fs2 fs3 dir outs /\ unblocked fs2 dir \/ writes_all fs2 fs3 outs) -> runs fs1 (outs1 ++ outs) fs3.

Section P.
Variable file_config : list N -> logger -> logger * res unit.
Variable is_word : N -> bool.
Variable ft : N -> bool.
Hypothesis pct_word : is_word pct = false.
Variable parse : str -> res yaml.
Hypothesis parse_wf : forall t y, parse t = Ok y -> yaml_wf y.
Variable environ : list (str * str).
Variable cwd : list str.
Hypothesis cwd_proper : Forall proper cwd.
Notation fsys := (list (list str * fnode)) (only parsing).
Notation command main := (command file_config is_word ft parse environ cwd main).
Notation zip_file := (zip_file cwd).
Notation path_of := (path_of cwd).
Notation file_gives := (file_gives is_word ft parse environ).
(** C134: a parameter file that does not depend on the outputs of a script means after it what it meant before. *)
Theorem C134_after_script : forall fs0 fs fs' f q F dir outs, part_without outs fs0 fs -> (only_writes fs fs' dir outs /\ unblocked fs dir \/ writes_all fs fs' outs) -> leads fs0 cwd f q -> file_gives fs0 q F ->
  leads fs' cwd f q /\ file_gives fs' q F.
Proof using.
  intros fs0 fs fs' f q F dir outs P W L G. assert (A : added fs0 fs') by (destruct W as [(OW & U)|WA]; [exact (only_writes_added _ _ _ _ _ P OW U)|exact (writes_all_added _ _ _ _ P WA)]).
  split; [exact (leads_added _ _ A _ _ _ L)|exact (C134_meaning _ _ A _ _ _ _ _ _ G)].
Qed.

(** ... and after any number of runs of scripts whose outputs it does not depend on. *)
Theorem C134_after_scripts : forall fs0 fs outs fs' f q F, runs fs outs fs' -> part_without outs fs0 fs -> leads fs0 cwd f q -> file_gives fs0 q F -> leads fs' cwd f q /\ file_gives fs' q F.
Proof using.
  intros fs0 fs outs fs' f q F R P L G. assert (A : part_without outs fs0 fs').
  { revert P. clear -R. induction R as [fs|fs1 outs1 fs2 dir outs fs3 R IH W]; intros P; [exact P|].
    assert (P1 : part_without outs1 fs0 fs1) by (intros x k Lx; destruct (P x k Lx) as (A & B); split; [exact A|intros I; apply B, in_or_app; now left]).
    assert (P2 : part_without outs fs0 fs2) by (intros x k Lx; split; [exact (proj1 (IH P1 x k Lx))|intros I; destruct (P x k Lx) as (_ & B); apply B, in_or_app; now right]).
    assert (A : added fs0 fs3) by (destruct W as [(OW & U)|WA]; [exact (only_writes_added _ _ _ _ _ P2 OW U)|exact (writes_all_added _ _ _ _ P2 WA)]).
    intros x k Lx. split; [now apply A|exact (proj2 (P x k Lx))]. }
  assert (B : added fs0 fs') by (intros x k Lx; exact (proj1 (A x k Lx))).
  split; [exact (leads_added _ _ B _ _ _ L)|exact (C134_meaning _ _ B _ _ _ _ _ _ G)].
Qed.

Variable X : Type.
Notation obj := (kv_obj X).
Variable import_module : str -> res obj.
Variable other_eval : str -> list (str * obj) -> res obj.
Variable builtin : str -> option obj.
Variable locals_of : pv -> str -> list (str * obj).
Variable x_is_class : X -> bool.
Variable x_from_parameters : X -> option (pv -> res obj).
Variable x_construct : X -> res obj.
Variable x_callable : X -> bool.
Variable x_call : X -> pv -> res obj.
Variables x_is_linear x_is_sink : X -> bool.
Variable other_globals : list (str * obj).
Variable ZC : zip_codec.
Variable torn : bytes.
Variable set_order : list str -> list str.
Variable seeded_shuffle : Z -> list str -> list str.
Variable rglob_order : list (list str * bytes) -> list (list str * bytes).
Variable other_source : obj -> fsys -> res (source bytes).
Variable oeq : pv -> pv -> bool.
Variable other_sink : obj -> fsys -> (fsys -> stream value) -> fsys * option exn.
Notation split_main := (split_main X import_module other_eval builtin locals_of x_is_class x_from_parameters x_construct x_callable x_call x_is_linear cwd other_globals ZC torn set_order seeded_shuffle other_source oeq).
Notation join_main := (join_main X import_module other_eval builtin locals_of x_is_class x_from_parameters x_construct x_callable x_call x_is_sink cwd other_globals ZC torn set_order other_sink).
Notation directory_main := (directory_main X import_module other_eval builtin locals_of x_is_class x_from_parameters x_construct x_callable x_call x_is_sink cwd other_globals ZC torn set_order rglob_order other_sink).
Notation holds := (holds ZC).
Hypothesis set_order_perm : forall l, Permutation (set_order l) l.
Hypothesis seeded_perm : forall z l, Permutation (seeded_shuffle z l) l.
Hypothesis rglob_perm : forall l, Permutation (rglob_order l) l.

(** C134: two commands in a row, each with any parameter file: splitting a store, and joining the listed slices, give a store with exactly the pairs of the first.  The second parameter file
    may be anything that means something without the outputs of the first command. *)
Theorem C134_split_then_join : forall args f ps q F fs lg l qin ks val n seed dir fs0 args2 f2 ps2 q2 F2 lg2 l2 c d, wf_fs fs -> look fs cwd = Some KDir ->
  Forall (fun w => value_word w \/ w = !!"-p") args -> Spells args f ps -> leads fs cwd f q -> file_gives fs q F -> agree F ps ->
  let V := overridden F ps in
  asks_level V l -> zip_file V !!"input" qin -> V [!!"num_slices"] = Some (Leaf (PInt (Z.of_nat n))) -> n <> 0 -> unset (V [!!"explicit_split"]) -> seed_is V seed -> path_of V !!"output_dir" dir ->
  holds fs qin ks val -> (forall k, In k ks -> plain_key k) -> unblocked fs dir -> Forall encodable dir -> Forall unbroken dir -> (forall o, In o (split_outs dir n) -> free fs o /\ o <> qin) ->
  part_without (split_outs dir n) fs0 fs ->
  Forall (fun w => value_word w \/ w = !!"-p") args2 -> Spells args2 f2 ps2 -> leads fs0 cwd f2 q2 -> file_gives fs0 q2 F2 -> agree F2 ps2 ->
  let V2 := overridden F2 ps2 in
  asks_level V2 l2 -> path_of V2 !!"input_store_list_file" (!!"_slices.txt" :: dir) -> zip_file V2 !!"output" (c :: d) ->
  unblocked fs d -> free fs (c :: d) -> (forall o, In o (split_outs dir n) -> ~ below o d) -> ~ below (c :: d) dir -> ~ In (c :: d) (split_outs dir n) ->
  exists depth, forall fuel, depth <= fuel -> exists fs1 fs2,
    command split_main fuel args fs lg = Done fs1 (MkLogger l (handlers lg ++ [l])) None /\
    command join_main fuel args2 fs1 lg2 = Done fs2 (MkLogger l2 (handlers lg2 ++ [l2])) None /\ holds fs2 (c :: d) ks val.
Proof using pct_word parse_wf set_order_perm seeded_perm cwd_proper.
  intros args f ps q F fs lg l qin ks val n seed dir fs0 args2 f2 ps2 q2 F2 lg2 l2 c d WF C Fa Sp L SF CP V AL (T & Uv & Ui & s & Pa & Rs) Vn N0 Ux Sd (dd & Vd & Rd) H PK Ub En Un FO PW Fa2 Sp2 L2 SF2 CP2 V2 AL2 (li & Vl & Rl) (T2 & Uv2 & Ui2 & s2 & Pa2 & Rs2) Ud Fd Bo Bd No.
  destruct (C128_any_file file_config is_word ft pct_word parse parse_wf environ cwd cwd_proper split_main args f ps q F fs lg l WF C Fa Sp L SF CP AL) as (n1 & P & WP & VP & E). fold V in VP.
  destruct (view_typed cwd P !!"input" s qin WP) as (ns & Ty & Nm); [vm_compute; intuition discriminate|rewrite VP; assumption|rewrite VP; assumption|rewrite VP; assumption|rewrite VP; assumption|assumption|].
  assert (A1 : Stored P !!"num_slices" (PInt (Z.of_nat n))) by (apply view_stored; [assumption|]; now rewrite VP).
  assert (A2 : Missing P !!"explicit_split") by (apply view_missing; [assumption|]; now rewrite VP).
  assert (A3 : seed_given P seed).
  { destruct seed as [z|]; cbn [seed_is seed_given] in *; [|apply view_missing; [assumption|]; now rewrite VP]. exists (PInt z). split; [|split; [constructor|apply Sd]]. apply view_stored; [assumption|]. rewrite VP. apply Sd. }
  assert (A4 : names_path cwd P !!"output_dir" dir) by (exists dd; split; [|assumption]; apply view_stored; [assumption|]; now rewrite VP).
  destruct (C84_split X import_module other_eval builtin locals_of x_is_class x_from_parameters x_construct x_callable x_call x_is_linear (fun _ => false) cwd other_globals ZC torn set_order seeded_shuffle (fun _ l => l) other_source oeq set_order_perm seeded_perm cwd_proper
    P fs ns qin ks val (PInt (Z.of_nat n)) n seed dir WP WF Ty Nm H PK A1 (iv_int _) N0 A2 A3 A4 Ub En FO) as (fs1 & _ & E1 & W1 & _ & _ & _ & _ & _ & OW & _).
  destruct (C134_after_script fs0 fs fs1 f2 q2 F2 dir (split_outs dir n) PW (or_introl (conj OW Ub)) L2 SF2) as (L3 & SF3).
  assert (C1 : look fs1 cwd = Some KDir) by (refine (dirs_stay fs fs1 dir (split_outs dir n) cwd OW (fun o I => proj1 (FO o I)) C)).
  destruct (C128_any_file file_config is_word ft pct_word parse parse_wf environ cwd cwd_proper join_main args2 f2 ps2 q2 F2 fs1 lg2 l2 W1 C1 Fa2 Sp2 L3 SF3 CP2 AL2) as (n2 & P2 & WP2 & VP2 & E2). fold V2 in VP2.
  destruct (view_typed cwd P2 !!"output" s2 (c :: d) WP2) as (ns2 & Ty2 & Nm2); [vm_compute; intuition discriminate|rewrite VP2; assumption|rewrite VP2; assumption|rewrite VP2; assumption|rewrite VP2; assumption|assumption|].
  destruct (C85_join_split X import_module other_eval builtin locals_of x_is_class x_from_parameters x_construct x_callable x_call x_is_linear (fun _ => false) x_is_sink cwd other_globals ZC torn set_order seeded_shuffle (fun _ l => l) other_source other_sink oeq set_order_perm seeded_perm cwd_proper
    P fs ns qin ks val (PInt (Z.of_nat n)) n seed dir P2 ns2 c d WP WF Ty Nm H PK A1 (iv_int _) N0 A2 A3 A4 Ub En Un FO WP2) as (fs1' & fs2 & E3 & E4 & Hh); try assumption.
  { exists li. split; [|assumption]. apply view_stored; [assumption|]. now rewrite VP2. }
  rewrite E1 in E3. injection E3 as <-. exists (Nat.max n1 n2). intros fuel Le. exists fs1, fs2. rewrite (E fuel) by lia. rewrite (E2 fuel) by lia. rewrite E1, E4. auto.
Qed.
End P.
Print Assumptions C134_load. Print Assumptions C134_meaning. Print Assumptions C134_getters. Print Assumptions C134_after_script. Print Assumptions C134_after_scripts. Print Assumptions C134_split_then_join.
