(** * Property C128: scripts from the command line with any parameter file (includes, references, environment) *)
From Coq Require Import Sorted.
From Verif Require Import Prelude PyStr SortLib TextLib Utf8 Order Range Params ParamsSpec ParamsProofs ParamsUnify ParamsPairs ParamsProps ParamsGet ParamsGetProps ParamsEval ParamsEvalProps Interp InterpSpec InterpProofs InterpWf InterpProps Load LoadSpec LoadProps
  InterpLoop InterpExpand SubNamespaces Fs FsProofs FsProps PathLists PathListsProps Decimals Io IoProps KeyValue KeyValueProps KvParams KvParamsProps Scripts ScriptsProps OsPath OsPathSpec OsPathProofs Mains MainsProofs MainsProps LoadFs LoadFsSpec LoadFsProps LoadComplete Entry EntryProps Command CommandProps CommandMains.

(** ** Specification *)
(** The parameters [F] (what is found under each name) with the pairs of the command line put over them; and when they do not contradict each other (see C95). *)
Definition overridden (F : list str -> option found) (ps : list (str * str)) (x : list str) : option found := merge1 (F x) (decided (rev (override_leaves ps)) x).
Definition agree (F : list str -> option found) (ps : list (str * str)) : Prop :=
  Forall (fun kv => fst kv <> []) ps /\ no_extension (override_leaves ps) /\
  forall x v, ~ (F x = Some (Leaf v) /\ decided (rev (override_leaves ps)) x = Some Namespace) /\ ~ (F x = Some Namespace /\ decided (rev (override_leaves ps)) x = Some (Leaf v)).

Section P.
Variable file_config : list N -> logger -> logger * res unit.
Variable is_word : N -> bool.
Variable ft : N -> bool.
Hypothesis pct_word : is_word pct = false.
Variable parse : str -> res yaml.
Hypothesis parse_wf : forall t y, parse t = Ok y -> yaml_wf y.
Variable environ : list (str * str).
Variable cwd : list str.
Hypothesis cwd_proper : Forall proper cwd.
Notation fsys := (list (list str * fnode)) (only parsing).
Notation command main := (command file_config is_word ft parse environ cwd main).
Notation zip_file := (zip_file cwd).
Notation path_of := (path_of cwd).
Notation zip_typed := (zip_typed cwd).
Notation path_named := (path_named cwd).

(** The file at [q] means [F] (C127): its includes, references and the environment taken into account. *)
Definition file_gives (fs : fsys) (q : list str) (F : list str -> option found) : Prop :=
  exists t cs, text_at fs q t /\ GivesAt fs is_word ft parse environ [PParams [] []] (Some (tl q)) t cs /\ forall x, F x = merged cs x.

(** C128: whatever main function the program has: with enough stack for the includes, it is called, with the parameters the file means and the pairs put over them. *)
Theorem C128_any_file : forall (main : pv -> fsys -> fsys * option exn) args f ps q F fs lg l, wf_fs fs -> look fs cwd = Some KDir ->
  Forall (fun w => value_word w \/ w = !!"-p") args -> Spells args f ps -> leads fs cwd f q -> file_gives fs q F -> agree F ps -> asks_level (overridden F ps) l ->
  exists depth P, wf_params P /\ (forall x, view P x = overridden F ps x) /\
    forall fuel, depth <= fuel -> command main fuel args fs lg = (let (fs', e) := main P fs in Done fs' (MkLogger l (handlers lg ++ [l])) e).
Proof using pct_word parse_wf cwd_proper.
  intros main args f ps q F fs lg l WF C Fa Sp L (t & cs & T & G & VF) (NE & NX & NC) AL.
  destruct (C127_complete fs WF is_word pct_word ft parse environ parse_wf cwd f None [] q t cs C cwd_proper) as (depth & p & Ep & Wp & _ & Vp'); [split; [repeat split; constructor|reflexivity]|exact L|exact T|exact G|].
  assert (Vp : forall x, view p x = F x) by (intros x; now rewrite Vp', VF). clear Vp' VF G T.
  assert (EP : exists P, (match ps with [] => Ok p | _ => let* o := from_key_value_pairs (map (fun kv => (fst kv, PStr (snd kv))) ps) dot in unify_with p o [] end) = Ok P /\ wf_params P /\ forall x, view P x = overridden F ps x).
  { destruct ps as [|kv0 kvs].
    - exists p. split; [reflexivity|]. split; [assumption|]. intros x. unfold overridden. rewrite Vp. cbn. destruct x; [|now destruct (F _) as [[]|]]. assert (F [] = Some Namespace) as -> by (rewrite <- Vp; exact (root_view p (proj2 Wp))). reflexivity.
    - set (ps := kv0 :: kvs) in *. assert (Lf : Forall (fun kv : str * pv => is_leaf (snd kv)) (map (fun kv : str * str => (fst kv, PStr (snd kv))) ps)).
      { apply Forall_forall. intros x I. apply in_map_iff in I. destruct I as (y & <- & _). exact Logic.I. }
      assert (Em : map (fun kv : str * pv => (py_split dot (fst kv), snd kv)) (map (fun kv : str * str => (fst kv, PStr (snd kv))) ps) = override_leaves ps) by (rewrite map_map; reflexivity).
      destruct (proj2 (C42_success _ Lf)) as (o & Eo).
      { split; [|now rewrite Em]. apply Forall_forall. intros x I. apply in_map_iff in I. destruct I as (y & <- & I). rewrite Forall_forall in NE. exact (NE y I). }
      pose proof (C42_from_pairs _ dot Lf) as H. cbn zeta in H. rewrite Eo, Em in H. destruct H as (Wo & _ & _ & _ & Vo). rewrite Eo. cbn [bind]. unfold unify_with. rewrite (proj2 Wo). cbn [bind].
      pose proof (C44_unify p o [] Wp Wo) as U. destruct (unify p o []) as [P|e].
      + destruct U as (WP & _ & V & _). exists P. split; [reflexivity|]. split; [assumption|]. intros x. rewrite V, Vp, Vo. reflexivity.
      + exfalso. destruct U as (_ & x & [(v & A & B)|(v & A & B & _)]); rewrite Vp in A; rewrite Vo in B; destruct (NC x v) as [N1 N2]; auto. }
  destruct EP as (P & EP & WP & VP). exists depth, P. split; [assumption|]. split; [assumption|]. intros fuel Le.
  unfold Command.command. rewrite (proj2 (proj1 (C95_arguments args Fa) f ps) Sp). unfold entry_point. rewrite (Ep fuel Le). cbn [bind]. rewrite EP.
  assert (configure_logging_from file_config cwd fs P false lg = (MkLogger l (handlers lg ++ [l]), Ok tt)) as ->; [|cbn [called_with log_after failure]; reflexivity].
  assert (M1 : forall n, unset (overridden F ps (py_split dot n)) -> Missing P n) by (intros n H; apply view_missing; [assumption|]; now rewrite VP).
  assert (A1 : Missing P !!"logging.config_file") by (apply M1; inversion AL; assumption).
  destruct (C74_levels file_config cwd fs P lg WP A1) as (Tl & _). inversion AL as [U1 U2 E|s l' U1 V2 Ll E]; subst.
  - apply (Tl !!"INFO" 20%Z); [|constructor]. apply al_default. exact (M1 !!"logging.root_level" U2).
  - apply (Tl s l); [|assumption]. apply al_given. apply view_stored; [assumption|]. now rewrite VP.
Qed.
(** C128: a parameter file that means nothing ends the program with an IOError before the main function is called; no file and no logging setting changes. *)
Theorem C128_refused : forall (main : pv -> fsys -> fsys * option exn) fuel args f ps q t fs lg, wf_fs fs -> look fs cwd = Some KDir -> fuel <> 0 -> all_tame fs is_word parse ->
  Forall (fun w => value_word w \/ w = !!"-p") args -> Spells args f ps -> leads fs cwd f q -> text_at fs q t -> (forall cs, ~ GivesAt fs is_word ft parse environ [PParams [] []] (Some (tl q)) t cs) ->
  command main fuel args fs lg = Done fs lg (Some IOError).
Proof using pct_word parse_wf cwd_proper.
  intros main fuel args f ps q t fs lg WF C NF A Fa Sp L T N. unfold Command.command. rewrite (proj2 (proj1 (C95_arguments args Fa) f ps) Sp). unfold entry_point.
  rewrite (C127_refused fs WF is_word pct_word ft parse environ parse_wf cwd fuel f None [] q t C cwd_proper); [reflexivity|split; [repeat split; constructor|reflexivity]|exact A|exact NF|exact L|exact T|exact N].
Qed.
Lemma script_gives (main : pv -> fsys -> fsys * option exn) (Q : fsys -> option exn -> Prop) : forall args f ps q F fs lg l, wf_fs fs -> look fs cwd = Some KDir ->
  Forall (fun w => value_word w \/ w = !!"-p") args -> Spells args f ps -> leads fs cwd f q -> file_gives fs q F -> agree F ps -> asks_level (overridden F ps) l ->
  (forall P, wf_params P -> (forall x, view P x = overridden F ps x) -> exists fs' e, main P fs = (fs', e) /\ Q fs' e) ->
  exists depth, forall fuel, depth <= fuel -> exists fs' e, command main fuel args fs lg = Done fs' (MkLogger l (handlers lg ++ [l])) e /\ Q fs' e.
Proof using pct_word parse_wf cwd_proper.
  intros args f ps q F fs lg l WF C Fa Sp L SF CP AL R. destruct (C128_any_file main args f ps q F fs lg l WF C Fa Sp L SF CP AL) as (depth & P & WP & VP & E). exists depth. intros fuel Le. rewrite (E fuel Le).
  destruct (R P WP VP) as (fs1 & e1 & E1 & H). rewrite E1. eauto.
Qed.

Variable X : Type.
Notation obj := (kv_obj X).
Variable import_module : str -> res obj.
Variable other_eval : str -> list (str * obj) -> res obj.
Variable builtin : str -> option obj.
Variable locals_of : pv -> str -> list (str * obj).
Variable x_is_class : X -> bool.
Variable x_from_parameters : X -> option (pv -> res obj).
Variable x_construct : X -> res obj.
Variable x_callable : X -> bool.
Variable x_call : X -> pv -> res obj.
Variables x_is_linear x_is_source x_is_sink : X -> bool.
Variable other_globals : list (str * obj).
Variable ZC : zip_codec.
Variable torn : bytes.
Variable set_order : list str -> list str.
Variables seeded_shuffle random_shuffle : Z -> list str -> list str.
Variable rglob_order : list (list str * bytes) -> list (list str * bytes).
Variable other_source : obj -> fsys -> res (source bytes).
Variable oeq : pv -> pv -> bool.
Variable other_sink : obj -> fsys -> (fsys -> stream value) -> fsys * option exn.
Notation split_main := (split_main X import_module other_eval builtin locals_of x_is_class x_from_parameters x_construct x_callable x_call x_is_linear cwd other_globals ZC torn set_order seeded_shuffle other_source oeq).
Notation join_main := (join_main X import_module other_eval builtin locals_of x_is_class x_from_parameters x_construct x_callable x_call x_is_sink cwd other_globals ZC torn set_order other_sink).
Notation downsample_main := (downsample_main X import_module other_eval builtin locals_of x_is_class x_from_parameters x_construct x_callable x_call x_is_source cwd other_globals ZC torn set_order random_shuffle other_source).
Notation directory_main := (directory_main X import_module other_eval builtin locals_of x_is_class x_from_parameters x_construct x_callable x_call x_is_sink cwd other_globals ZC torn set_order rglob_order other_sink).
Notation holds := (holds ZC).
Hypothesis set_order_perm : forall l, Permutation (set_order l) l.
Hypothesis seeded_perm : forall z l, Permutation (seeded_shuffle z l) l.
Hypothesis random_perm : forall z l, Permutation (random_shuffle z l) l.
Hypothesis rglob_perm : forall l, Permutation (rglob_order l) l.

(** C128: split_key_value_store from the command line, with any parameter file.  The file says where the input is, how many slices to make and where; the pairs of the command line
    may change any of the names. *)
Theorem C128_split : forall args f ps q F fs lg l qin ks val n seed dir, wf_fs fs -> look fs cwd = Some KDir ->
  Forall (fun w => value_word w \/ w = !!"-p") args -> Spells args f ps -> leads fs cwd f q -> file_gives fs q F -> agree F ps ->
  let V := overridden F ps in
  asks_level V l -> zip_file V !!"input" qin -> V [!!"num_slices"] = Some (Leaf (PInt (Z.of_nat n))) -> n <> 0 -> unset (V [!!"explicit_split"]) -> seed_is V seed -> path_of V !!"output_dir" dir ->
  holds fs qin ks val -> (forall k, In k ks -> plain_key k) -> unblocked fs dir -> Forall encodable dir -> (forall o, In o (split_outs dir n) -> free fs o /\ o <> qin) ->
  exists depth, forall fuel, depth <= fuel -> exists fs' parts, command split_main fuel args fs lg = Done fs' (MkLogger l (handlers lg ++ [l])) None /\ wf_fs fs' /\
    length parts = n /\ Permutation (concat parts) ks /\ (forall i part, nth_error parts i = Some part -> holds fs' (slice_name i :: dir) part val /\ length part = (length ks + n - 1 - i) / n) /\
    only_writes fs fs' dir (split_outs dir n) /\ holds fs' qin ks val.
Proof using pct_word parse_wf set_order_perm seeded_perm cwd_proper.
  clear random_perm rglob_perm other_sink rglob_order random_shuffle x_is_source x_is_sink. intros args f ps q F fs lg l qin ks val n seed dir WF C Fa Sp L SF CP V AL Z Vn N0 Ux Sd Po H PK Ub En FO.
  destruct (script_gives split_main (fun fs' e => e = None /\ exists parts, wf_fs fs' /\
    length parts = n /\ Permutation (concat parts) ks /\ (forall i part, nth_error parts i = Some part -> holds fs' (slice_name i :: dir) part val /\ length part = (length ks + n - 1 - i) / n) /\
    only_writes fs fs' dir (split_outs dir n) /\ holds fs' qin ks val) args f ps q F fs lg l WF C Fa Sp L SF CP AL) as (depth & RR).
  - intros P WP VP. fold V in VP. destruct (zip_typed V P !!"input" qin WP VP) as (ns & Ty & Nm); [vm_compute; intuition discriminate|exact Z|].
    destruct (C84_split X import_module other_eval builtin locals_of x_is_class x_from_parameters x_construct x_callable x_call x_is_linear (fun _ => false) cwd other_globals ZC torn set_order seeded_shuffle (fun _ l => l) other_source oeq set_order_perm seeded_perm cwd_proper
    P fs ns qin ks val (PInt (Z.of_nat n)) n seed dir WP WF Ty Nm H PK) as (fs1 & parts & E1 & W1 & R1 & R2 & _ & R3 & _ & R4 & R5).
    + apply view_stored; [assumption|]. now rewrite VP.
    + constructor.
    + assumption.
    + apply view_missing; [assumption|]. now rewrite VP.
    + destruct seed as [z|]; cbn [seed_is seed_given] in *; [|apply view_missing; [assumption|]; now rewrite VP]. exists (PInt z). split; [|split; [constructor|apply Sd]]. apply view_stored; [assumption|]. rewrite VP. apply Sd.
    + apply (path_named V); try assumption. vm_compute; intuition discriminate.
    + assumption.
    + assumption.
    + exact FO.
    + exists fs1, None. split; [exact E1|]. split; [reflexivity|]. exists parts. repeat (split; [assumption|]). assumption.
  - exists depth. intros fuel Le. destruct (RR fuel Le) as (fs' & e & E & -> & parts & R). exists fs', parts. split; [exact E|exact R].
Qed.

(** C128: join_key_value_stores from the command line, with any parameter file. *)
Theorem C128_join : forall args f ps q F fs lg l ms xs c d, wf_fs fs -> look fs cwd = Some KDir ->
  Forall (fun w => value_word w \/ w = !!"-p") args -> Spells args f ps -> leads fs cwd f q -> file_gives fs q F -> agree F ps ->
  let V := overridden F ps in
  asks_level V l -> listed cwd V fs ms -> Forall2 (leads fs cwd) ms (map (fun x => fst (fst x)) xs) -> stores_ok ZC fs xs -> NoDup (stored_keys xs) ->
  zip_file V !!"output" (c :: d) -> unblocked fs d -> free fs (c :: d) -> ~ In (c :: d) (map (fun x => fst (fst x)) xs) ->
  exists depth, forall fuel, depth <= fuel -> exists fs' val, command join_main fuel args fs lg = Done fs' (MkLogger l (handlers lg ++ [l])) None /\ wf_fs fs' /\ holds fs' (c :: d) (stored_keys xs) val /\
    (forall q ks v k, In (q, ks, v) xs -> In k ks -> val k = v k) /\ only_writes fs fs' d [c :: d] /\ stores_ok ZC fs' xs.
Proof using pct_word parse_wf set_order_perm cwd_proper.
  clear oeq random_perm rglob_perm seeded_perm other_source rglob_order seeded_shuffle random_shuffle x_is_linear x_is_source.
  intros args f ps q F fs lg l ms xs c d WF C Fa Sp L SF CP V AL Li Lm So ND Z Ub Fr No.
  destruct (script_gives join_main (fun fs' e => e = None /\ exists val, wf_fs fs' /\ holds fs' (c :: d) (stored_keys xs) val /\
    (forall q ks v k, In (q, ks, v) xs -> In k ks -> val k = v k) /\ only_writes fs fs' d [c :: d] /\ stores_ok ZC fs' xs) args f ps q F fs lg l WF C Fa Sp L SF CP AL) as (depth & RR).
  - intros P WP VP. fold V in VP. destruct (zip_typed V P !!"output" (c :: d) WP VP) as (ns & Ty & Nm); [vm_compute; intuition discriminate|exact Z|].
    destruct (C85_join X import_module other_eval builtin locals_of x_is_class x_from_parameters x_construct x_callable x_call x_is_sink cwd other_globals ZC torn set_order other_sink set_order_perm cwd_proper
      P fs ns c d xs WP WF) as (fs' & val & E & R); try assumption.
    + exists ms. split; [|exact Lm]. destruct Li as [q' b t ls Pq Lk D Pc K|ss Vs Ss].
      * apply (li_file cwd P fs ms q' b t ls); try assumption. apply (path_named V); try assumption. vm_compute; intuition discriminate.
      * apply (li_list cwd P fs ms ss); [|exact Ss]. apply view_stored; [exact WP|]. rewrite VP. exact Vs.
    + exists fs', None. split; [exact E|]. split; [reflexivity|]. exists val. exact R.
  - exists depth. intros fuel Le. destruct (RR fuel Le) as (fs' & e & E & -> & val & R). exists fs', val. split; [exact E|exact R].
Qed.

(** C128: downsample_key_value_store from the command line, with any parameter file. *)
Theorem C128_downsample : forall args f ps q F fs lg l qin ks val n c d, wf_fs fs -> look fs cwd = Some KDir ->
  Forall (fun w => value_word w \/ w = !!"-p") args -> Spells args f ps -> leads fs cwd f q -> file_gives fs q F -> agree F ps ->
  let V := overridden F ps in
  asks_level V l -> zip_file V !!"input" qin -> V [!!"num_to_sample"] = Some (Leaf (PInt (Z.of_nat n))) -> n <> 0 -> (V [!!"random_seed"] = None \/ exists s, V [!!"random_seed"] = Some (Leaf (PInt s))) ->
  path_of V !!"output_zip_path" (c :: d) -> holds fs qin ks val -> (forall k, In k ks -> plain_key k) -> unblocked fs d -> free fs (c :: d) -> c :: d <> qin ->
  exists depth, forall fuel, depth <= fuel -> exists fs' kept, command downsample_main fuel args fs lg = Done fs' (MkLogger l (handlers lg ++ [l])) None /\ wf_fs fs' /\ holds fs' (c :: d) kept val /\
    NoDup kept /\ incl kept ks /\ length kept = Nat.min n (length ks) /\ only_writes fs fs' d [c :: d] /\ holds fs' qin ks val.
Proof using pct_word parse_wf set_order_perm random_perm cwd_proper.
  clear oeq rglob_perm seeded_perm other_sink rglob_order seeded_shuffle x_is_linear x_is_sink.
  intros args f ps q F fs lg l qin ks val n c d WF C Fa Sp L SF CP V AL Z Vn N0 Sd Po H PK Ub Fr Ne.
  destruct (script_gives downsample_main (fun fs' e => e = None /\ exists kept, wf_fs fs' /\ holds fs' (c :: d) kept val /\
    NoDup kept /\ incl kept ks /\ length kept = Nat.min n (length ks) /\ only_writes fs fs' d [c :: d] /\ holds fs' qin ks val) args f ps q F fs lg l WF C Fa Sp L SF CP AL) as (depth & RR).
  - intros P WP VP. fold V in VP. destruct (zip_typed V P !!"input" qin WP VP) as (ns & Ty & Nm); [vm_compute; intuition discriminate|exact Z|].
    assert (S1 : exists sv, ParamsSpec.Absent P !!"random_seed" \/ exists s, Stored P !!"random_seed" sv /\ int_value sv s).
    { destruct Sd as [Sd|(s & Sd)]; [exists PNone; left; apply view_absent; [exact WP|]; rewrite VP; exact Sd|]. exists (PInt s). right. exists s. split; [|constructor]. apply view_stored; [exact WP|]. rewrite VP. exact Sd. }
    destruct S1 as (sv & S1).
    destruct (C86_downsample X import_module other_eval builtin locals_of x_is_class x_from_parameters x_construct x_callable x_call (fun _ => false) x_is_source cwd other_globals ZC torn set_order (fun _ l => l) random_shuffle other_source (fun _ fs _ => (fs, None)) set_order_perm random_perm cwd_proper
      P fs ns qin ks val (PInt (Z.of_nat n)) n sv c d WP WF Ty Nm H PK) as (fs' & kept & E & R); try assumption.
    + apply view_stored; [exact WP|]. rewrite VP. exact Vn.
    + constructor.
    + apply (path_named V); try assumption. vm_compute; intuition discriminate.
    + exists fs', None. split; [exact E|]. split; [reflexivity|]. exists kept. exact R.
  - exists depth. intros fuel Le. destruct (RR fuel Le) as (fs' & e & E & -> & kept & R). exists fs', kept. split; [exact E|exact R].
Qed.

(** C128: directory_to_key_value_store from the command line, with any parameter file. *)
Theorem C128_directory : forall args f ps q F fs lg l i strip c d, wf_fs fs -> look fs cwd = Some KDir ->
  Forall (fun w => value_word w \/ w = !!"-p") args -> Spells args f ps -> leads fs cwd f q -> file_gives fs q F -> agree F ps ->
  let V := overridden F ps in
  asks_level V l -> path_of V !!"input_directory" i -> look fs i = Some KDir -> key_named V strip -> zip_file V !!"output" (c :: d) -> unblocked fs d -> free fs (c :: d) -> ~ below i (c :: d) ->
  (forall q b k, file_under fs i q b -> file_key strip q k -> plain_key k) ->
  (forall q q' b b' k, file_under fs i q b -> file_under fs i q' b' -> file_key strip q k -> file_key strip q' k -> q = q') ->
  exists depth, forall fuel, depth <= fuel -> exists fs' ks val, command directory_main fuel args fs lg = Done fs' (MkLogger l (handlers lg ++ [l])) None /\ wf_fs fs' /\ holds fs' (c :: d) ks val /\
    (forall k, In k ks <-> exists q b, file_under fs i q b /\ file_key strip q k) /\
    (forall q b k, file_under fs i q b -> file_key strip q k -> val k = b) /\ only_writes fs fs' d [c :: d].
Proof using pct_word parse_wf set_order_perm rglob_perm cwd_proper.
  clear oeq random_perm seeded_perm other_source random_shuffle seeded_shuffle x_is_linear x_is_source.
  intros args f ps q F fs lg l i strip c d WF C Fa Sp L SF CP V AL Pi Li Kf Z Ub Fr Nb PK Un.
  destruct (script_gives directory_main (fun fs' e => e = None /\ exists ks val, wf_fs fs' /\ holds fs' (c :: d) ks val /\
    (forall k, In k ks <-> exists q b, file_under fs i q b /\ file_key strip q k) /\
    (forall q b k, file_under fs i q b -> file_key strip q k -> val k = b) /\ only_writes fs fs' d [c :: d]) args f ps q F fs lg l WF C Fa Sp L SF CP AL) as (depth & RR).
  - intros P WP VP. fold V in VP. destruct (zip_typed V P !!"output" (c :: d) WP VP) as (ns & Ty & Nm); [vm_compute; intuition discriminate|exact Z|].
    destruct (C87_copy X import_module other_eval builtin locals_of x_is_class x_from_parameters x_construct x_callable x_call x_is_sink cwd other_globals ZC torn set_order rglob_order other_sink set_order_perm rglob_perm cwd_proper
      P fs ns c d i strip WP WF) as (fs' & ks & val & E & R); try assumption.
    + apply (path_named V); try assumption. vm_compute; intuition discriminate.
    + unfold key_named in Kf. unfold key_choice. destruct strip.
      * apply view_stored; [exact WP|]. rewrite VP. exact Kf.
      * destruct Kf as [U|U]; [left; apply view_missing|right; apply view_stored]; try exact WP; rewrite VP; exact U.
    + exists fs', None. split; [exact E|]. split; [reflexivity|]. exists ks, val. exact R.
  - exists depth. intros fuel Le. destruct (RR fuel Le) as (fs' & e & E & -> & ks & val & R). exists fs', ks, val. split; [exact E|exact R].
Qed.

(** C128: split_key_value_store with explicit_split from the command line, with any parameter file. *)
Theorem C128_explicit_split : forall args f ps q F fs lg l qin ks val xs b, wf_fs fs -> look fs cwd = Some KDir ->
  Forall (fun w => value_word w \/ w = !!"-p") args -> Spells args f ps -> leads fs cwd f q -> file_gives fs q F -> agree F ps ->
  let V := overridden F ps in
  asks_level V l -> zip_file V !!"input" qin -> holds fs qin ks val -> unset (V [!!"num_slices"]) -> parts_are V xs -> exhaustive_is V b ->
  (forall x, In x xs -> part_ok cwd V fs x /\ pt_out x <> qin) -> parts_apart xs -> (forall x k, In x xs -> In k (pt_keys x) -> In k ks) ->
  exists depth, forall fuel, depth <= fuel -> exists fs' e, command split_main fuel args fs lg = Done fs' (MkLogger l (handlers lg ++ [l])) e /\ wf_fs fs' /\
    (forall x, In x xs -> holds fs' (pt_out x) (pt_keys x) val) /\ writes_all fs fs' (map pt_out xs) /\ holds fs' qin ks val /\
    ((b = true -> forall k, In k ks -> exists x, In x xs /\ In k (pt_keys x)) -> e = None) /\
    (forall k, b = true -> In k ks -> (forall x, In x xs -> ~ In k (pt_keys x)) -> e = Some RuntimeError).
Proof using pct_word parse_wf set_order_perm cwd_proper.
  clear random_perm rglob_perm seeded_perm other_sink rglob_order random_shuffle x_is_source x_is_sink.
  intros args f ps q F fs lg l qin ks val xs b WF C Fa Sp L SF CP V AL Z H Un Pa Ex Ok_ Ap Kin.
  apply script_gives with (q := q) (ps := ps) (f := f) (F := F); try assumption.
  intros P WP VP. fold V in VP. destruct (zip_typed V P !!"input" qin WP VP) as (ns & Ty & Nm); [vm_compute; intuition discriminate|exact Z|].
  destruct Pa as (Ve & Nn & Names). destruct (view_namespace P !!"explicit_split" WP) as (sns & Wk & Ip & Wn & Vn); [rewrite VP; exact Ve|].
  destruct sns as [| | | | | | | | |pre d|]; try discriminate Ip. pose proof (proj1 Wn) as Wd. rewrite wf_map in Wd. destruct Wd as (Nd & Dl & _).
  assert (Vc : forall k c y, In (k, c) d -> view c y = V (!!"explicit_split" :: k :: y)).
  { intros k c y I. rewrite <- VP, <- Vn. cbn [view]. now rewrite (in_dfind d k c Nd I). }
  assert (Wc : forall k c, In (k, c) d -> is_params c = true -> wf_params c).
  { intros k c I Ic. split; [|exact Ic]. apply (wf_find pre d k); [apply Wn|]. now apply in_dfind. }
  destruct (match_parts xs d Nd) as (zs & Ez & I1 & Nz & I2).
  { intros k c I Ic. assert (Ik : In k (map pt_name xs)). { apply Names. rewrite <- (Vc k c [] I). destruct c; try discriminate Ic. reflexivity. } apply in_map_iff in Ik. destruct Ik as (x & Exn & Ix). eauto. }
  assert (I3 : forall x, In x xs -> exists c, In (x, c) zs).
  { intros x Ix. assert (En : V [!!"explicit_split"; pt_name x] = Some Namespace) by (apply Names; now apply in_map). rewrite <- VP, <- Vn in En. cbn [view] in En. destruct (dfind d (pt_name x)) as [c|] eqn:D; [|discriminate]. apply dfind_in in D.
    assert (Ic : is_params c = true). { destruct c; try discriminate En; [|reflexivity]. exfalso. pose proof (proj1 Wn) as W'. rewrite wf_map in W'. destruct W' as (_ & _ & W'). rewrite Forall_forall in W'. exact (W' _ D). }
    destruct (I2 _ c D Ic) as (y & Iy & Ey). destruct (I1 y c Iy) as (Iy' & _). exists c. rewrite (nodup_inj pt_name xs Nn x y Ix Iy' (eq_sym Ey)). exact Iy. }
  set (mk := fun z : part * pv => {| sp_ns := snd z; sp_file := pt_file (fst z); sp_keys := pt_keys (fst z); sp_out := pt_out (fst z) |}).
  destruct (C88_explicit X import_module other_eval builtin locals_of x_is_class x_from_parameters x_construct x_callable x_call x_is_linear (fun _ => false) cwd other_globals ZC torn set_order seeded_shuffle other_source oeq set_order_perm cwd_proper
    P fs ns qin ks val (PParams pre d) (map mk zs) b WP WF Ty Nm H) as (fs' & e & E & W' & R1 & R2 & R3 & R4 & R5).
  - apply view_missing; [exact WP|]. rewrite VP. exact Un.
  - apply stored_walk; [apply WP|]. exact Wk.
  - reflexivity.
  - cbn [children]. rewrite Ez, map_map. reflexivity.
  - destruct Ex as [(A & B)|A]; [left; split; [apply view_absent; [exact WP|]; rewrite VP; exact A|exact B]|right; apply view_stored; [exact WP|]; rewrite VP; exact A].
  - intros s I. apply in_map_iff in I. destruct I as ([x c] & <- & I). destruct (I1 x c I) as (Ix & Id & Ic). destruct (Ok_ x Ix) as ((A1 & A2 & A3 & A4 & A5 & A6 & A7 & A8 & A9) & B). split; [|exact B]. pose proof (Wc _ c Id Ic) as Wcc.
    split; [split; [exact Wcc|]; apply listless_view; [exact Wcc|]; intros y li; cbn [sp_ns mk snd]; rewrite (Vc _ c y Id); apply A9|].
    split; [apply (path_named (fun y => V (!!"explicit_split" :: pt_name x :: y))); [exact Wcc|intros y; apply (Vc _ c y Id)|vm_compute; intuition discriminate|exact A1]|].
    split; [exact A2|]. split; [exact A3|]. split; [exact A4|].
    split; [apply (path_named (fun y => V (!!"explicit_split" :: pt_name x :: y))); [exact Wcc|intros y; apply (Vc _ c y Id)|vm_compute; intuition discriminate|exact A5]|].
    split; [exact A6|]. split; [exact A7|exact A8].
  - destruct Ap as (No & Nb). split.
    + rewrite map_map. apply (nodup_by (fun z => pt_name (fst z))); [exact Nz|]. intros [x c] [y c'] Ix Iy Eo. cbn [mk sp_out fst] in *. f_equal. apply (nodup_inj pt_out xs No); [apply (I1 x c Ix)|apply (I1 y c' Iy)|exact Eo].
    + intros s s' Is Is'. apply in_map_iff in Is, Is'. destruct Is as ([x c] & <- & Ix), Is' as ([y c'] & <- & Iy). apply Nb; [apply (I1 x c Ix)|apply (I1 y c' Iy)].
  - intros s k I Ik. apply in_map_iff in I. destruct I as ([x c] & <- & I). exact (Kin x k (proj1 (I1 x c I)) Ik).
  - assert (Same : forall o, In o (map sp_out (map mk zs)) <-> In o (map pt_out xs)).
    { intros o. rewrite map_map, !in_map_iff. split.
      - intros ([x c] & Eo & I). exists x. split; [exact Eo|apply (I1 x c I)].
      - intros (x & Eo & Ix). destruct (I3 x Ix) as (c & I). exists (x, c). split; [exact Eo|exact I]. }
    exists fs', e. split; [exact E|]. split; [exact W'|]. split.
    { intros x Ix. destruct (I3 x Ix) as (c & I). exact (R1 (mk (x, c)) (in_map mk _ _ I)). }
    split; [|split; [exact R3|split]].
    + intros r Nr. destruct (R2 r) as [A|(A & B & o & Io & Bo)]; [intros I; apply Nr; now apply Same|left; exact A|].
      right. split; [exact A|]. split; [exact B|]. exists o. split; [now apply Same|exact Bo].
    + intros G. apply R4. intros Eb k Ik. destruct (G Eb k Ik) as (x & Ix & Ixk). destruct (I3 x Ix) as (c & I). exists (mk (x, c)). split; [apply in_map; exact I|exact Ixk].
    + intros k Eb Ik N. apply (R5 k Eb Ik). intros s Is. apply in_map_iff in Is. destruct Is as ([x c] & <- & I). apply N. apply (I1 x c I).
Qed.
End P.
Print Assumptions C128_any_file.
Print Assumptions C128_refused.
Print Assumptions C128_split.
Print Assumptions C128_join.
Print Assumptions C128_downsample.
Print Assumptions C128_directory.
Print Assumptions C128_explicit_split.
