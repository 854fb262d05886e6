(** * C95: the other scripts from the command line to the files *)
From Coq Require Import Sorted.
From Verif Require Import Prelude PyStr SortLib TextLib Utf8 Order Range Params ParamsSpec ParamsProofs ParamsUnify ParamsPairs ParamsProps ParamsGet ParamsGetProps ParamsEval ParamsEvalProps Interp InterpSpec InterpProofs InterpWf InterpProps Load LoadSpec LoadProps
  InterpLoop InterpExpand SubNamespaces Fs FsProofs FsProps PathLists PathListsProps Decimals Io IoProps KeyValue KeyValueProps KvParams KvParamsProps Scripts ScriptsProps OsPath OsPathSpec OsPathProofs Mains MainsProofs MainsProps LoadFs LoadFsSpec LoadFsProps Entry EntryProps Command CommandProps.

(** ** What the parameters say, by what is found under the names *)
(** ... which paths are listed: the lines of a file (see C81), or the strings of a list. *)
Inductive listed (cwd : list str) (V : list str -> option found) (fs : list (list str * fnode)) (ms : list str) : Prop :=
| listed_file q b t ls : path_of cwd V !!"input_store_list_file" q -> look fs q = Some (KFile b) -> decode b = Ok t -> pieces t ls -> keeps ls ms -> listed cwd V fs ms
| listed_here ss : V [!!"input_store_list_file"] = Some (Leaf (PList (map PStr ss))) -> Forall2 (stripped is_space) ss ms -> listed cwd V fs ms.
(** ... how keys are made of file names. *)
Definition key_named (V : list str -> option found) (strip : bool) : Prop :=
  if strip then V [!!"key_function"] = Some (Leaf (PStr !!"strip_one_extension")) else unset (V [!!"key_function"]) \/ V [!!"key_function"] = Some (Leaf (PStr !!"identity")).
(** ... one of the splits of explicit_split: its name, the file with its keys, these keys, and its output. *)
Record part := { pt_name : str; pt_file : list str; pt_keys : list str; pt_out : list str }.
Definition part_ok (cwd : list str) (V : list str -> option found) (fs : list (list str * fnode)) (x : part) : Prop :=
  path_of cwd (fun y => V (!!"explicit_split" :: pt_name x :: y)) !!"keys_file" (pt_file x) /\ key_file fs (pt_file x) (pt_keys x) /\ NoDup (pt_keys x) /\ (forall k, In k (pt_keys x) -> plain_key k) /\
  path_of cwd (fun y => V (!!"explicit_split" :: pt_name x :: y)) !!"output_file" (pt_out x) /\ pt_out x <> [] /\ unblocked fs (tl (pt_out x)) /\ free fs (pt_out x) /\
  (forall y l, V (!!"explicit_split" :: pt_name x :: y) <> Some (Leaf (PList l))).
(** ... the splits are these. *)
Definition parts_are (V : list str -> option found) (xs : list part) : Prop :=
  V [!!"explicit_split"] = Some Namespace /\ NoDup (map pt_name xs) /\ forall n, In n (map pt_name xs) <-> V [!!"explicit_split"; n] = Some Namespace.
(** The outputs are different files, none lies where another needs a directory, and none is a file of keys. *)
Definition parts_apart (xs : list part) : Prop :=
  NoDup (map pt_out xs) /\ forall x y, In x xs -> In y xs -> ~ below (pt_out x) (tl (pt_out y)) /\ pt_file y <> pt_out x.
Definition exhaustive_is (V : list str -> option found) (b : bool) : Prop := V [!!"must_be_exhaustive"] = None /\ b = true \/ V [!!"must_be_exhaustive"] = Some (Leaf (PBool b)).

Lemma view_absent P name : wf_params P -> view P (py_split dot name) = None -> ParamsSpec.Absent P name.
Proof. intros W V. apply absent_walk; [apply W|]. rewrite walk_view in V by apply W. now destruct (walk P (py_split dot name)). Qed.

Lemma view_namespace P k : wf_params P -> view P [k] = Some Namespace -> exists ns, walk P [k] = Some ns /\ is_params ns = true /\ wf_params ns /\ forall y, view ns y = view P (k :: y).
Proof.
  intros W V. destruct P as [| | | | | | | | |pre d|]; try (destruct W; discriminate). cbn [view] in V. destruct (dfind d k) as [ns|] eqn:D; [|discriminate]. exists ns. assert (Wn : wf ns) by (eapply wf_find; [apply W|exact D]).
  assert (is_params ns = true) as Ip. { destruct ns; try discriminate V; [now simpl in Wn|reflexivity]. }
  cbn [walk]. rewrite D. split; [reflexivity|]. split; [assumption|]. split; [now split|]. intros z. cbn [view]. now rewrite D.
Qed.
Lemma listless_view ns : wf_params ns -> (forall y l, view ns y <> Some (Leaf (PList l))) -> no_list_inside ns.
Proof. intros W N name l H. apply stored_walk in H; [|apply W]. apply (N (py_split dot name) l). rewrite walk_view by apply W. now rewrite H. Qed.
Lemma nodup_by {A B C} (f : A -> B) (g : A -> C) (l : list A) : NoDup (map f l) -> (forall a b, In a l -> In b l -> g a = g b -> f a = f b) -> NoDup (map g l).
Proof.
  induction l as [|a l IH]; intros N E; [constructor|]. cbn [map] in *. inversion N as [|? ? Na N']; subst. constructor.
  - intros I. apply Na. apply in_map_iff in I. destruct I as (b & Eb & I). rewrite (E a b); [now apply in_map|now left|now right|congruence].
  - apply IH; [exact N'|]. intros x y Ix Iy. apply E; now right.
Qed.
Lemma nodup_inj {A B} (f : A -> B) (l : list A) : NoDup (map f l) -> forall a b, In a l -> In b l -> f a = f b -> a = b.
Proof.
  induction l as [|x l IH]; intros N a b; [intros []|]. cbn [map] in N. inversion N as [|? ? Nx N']; subst. intros [->|Ia] [->|Ib] E; try reflexivity.
  - exfalso. apply Nx. rewrite E. now apply in_map.
  - exfalso. apply Nx. rewrite <- E. now apply in_map.
  - now apply IH.
Qed.
(** The namespaces in a dict, each with the split of its name. *)
Lemma match_parts (xs : list part) (d : data_t) : NoDup (keys d) -> (forall k c, In (k, c) d -> is_params c = true -> exists x, In x xs /\ pt_name x = k) ->
  exists zs : list (part * pv), filter is_params (map snd d) = map snd zs /\ (forall x c, In (x, c) zs -> In x xs /\ In (pt_name x, c) d /\ is_params c = true) /\
    NoDup (map (fun z => pt_name (fst z)) zs) /\ forall k c, In (k, c) d -> is_params c = true -> exists x, In (x, c) zs /\ pt_name x = k.
Proof.
  induction d as [|[k c] d IH]; intros N H.
  - exists []. split; [reflexivity|]. split; [intros x c []|]. split; [constructor|]. intros k c [].
  - cbn [keys map fst] in N. inversion N as [|? ? Nk N']; subst. destruct IH as (zs & E & I1 & Nz & I2); [exact N'|intros k' c' I; apply (H k' c'); now right|].
    cbn [map snd filter]. destruct (is_params c) eqn:Ic.
    + destruct (H k c (or_introl eq_refl) Ic) as (x & Ix & Ex). exists ((x, c) :: zs). cbn [map snd fst]. rewrite E. split; [reflexivity|]. split; [|split].
      * intros y c' [Ey|Iy]; [injection Ey as <- <-; rewrite Ex; split; [exact Ix|split; [now left|exact Ic]]|]. destruct (I1 y c' Iy) as (A & B & C). split; [exact A|split; [now right|exact C]].
      * constructor; [|exact Nz]. intros I. apply in_map_iff in I. destruct I as ([y c'] & Ey & Iy). cbn [fst] in Ey. destruct (I1 y c' Iy) as (_ & B & _). apply Nk. rewrite <- Ex, <- Ey. exact (in_map fst _ _ B).
      * intros k' c' [Ek|Ik] Ic'; [injection Ek as <- <-; exists x; split; [now left|exact Ex]|]. destruct (I2 k' c' Ik Ic') as (y & Iy & Ey). exists y. split; [now right|exact Ey].
    + exists zs. split; [exact E|]. split; [|split].
      * intros y c' Iy. destruct (I1 y c' Iy) as (A & B & C). split; [exact A|split; [now right|exact C]].
      * exact Nz.
      * intros k' c' [Ek|Ik] Ic'; [injection Ek as <- <-; congruence|]. exact (I2 k' c' Ik Ic').
Qed.

Section P.
Variable file_config : list N -> logger -> logger * res unit.
Variable is_word : N -> bool.
Variable ft : N -> bool.
Hypothesis pct_word : is_word pct = false.
Variable parse : str -> res yaml.
Hypothesis parse_wf : forall t y, parse t = Ok y -> yaml_wf y.
Variable environ : list (str * str).
Hypothesis environ_names : forall k v, In (k, v) environ -> ~ In dot k.
Variable cwd : list str.
Notation fsys := (list (list str * fnode)) (only parsing).
Notation command main := (command file_config is_word ft parse environ cwd main).
Notation zip_file := (zip_file cwd).
Notation path_of := (path_of cwd).

Lemma script_runs (main : pv -> fsys -> fsys * option exn) (Q : fsys -> option exn -> Prop) : forall fuel args f ps q m fs lg l, fuel <> 0 ->
  Forall (fun w => value_word w \/ w = !!"-p") args -> Spells args f ps -> leads fs cwd f q -> simple_file is_word parse fs q m -> compatible m ps -> asks_level (effective m ps) l ->
  (forall P, wf_params P -> (forall x, view P x = effective m ps x) -> exists fs' e, main P fs = (fs', e) /\ Q fs' e) ->
  exists fs' e, command main fuel args fs lg = Done fs' (MkLogger l (handlers lg ++ [l])) e /\ Q fs' e.
Proof using pct_word parse_wf environ_names.
  intros fuel args f ps q m fs lg l NF F Sp L SF CP AL R.
  destruct (C95_simple_file file_config is_word ft pct_word parse parse_wf environ environ_names cwd main fuel args f ps q m fs lg l NF F Sp L SF CP AL) as (P & fs' & e & WP & VP & M & E).
  destruct (R P WP VP) as (fs1 & e1 & E1 & H). rewrite M in E1. injection E1 as <- <-. eauto.
Qed.
Lemma zip_typed V P k q : wf_params P -> (forall x, view P x = V x) -> ~ In dot k -> zip_file V k q -> exists ns, Typed P k !!"zip" ns /\ names_path cwd ns !!"path" q.
Proof using. clear. intros W E D (T & Uv & Ui & s & Pa & R). apply (view_typed cwd P k s q W D); try assumption; now rewrite E. Qed.
Lemma path_named V P k q : wf_params P -> (forall x, view P x = V x) -> ~ In dot k -> path_of V k q -> names_path cwd P k q.
Proof using. clear. intros W E D (s & Vs & R). exists s. split; [|exact R]. apply view_stored; [exact W|]. rewrite py_split_no by exact D. now rewrite E. Qed.

Variable X : Type.
Notation obj := (kv_obj X).
Variable import_module : str -> res obj.
Variable other_eval : str -> list (str * obj) -> res obj.
Variable builtin : str -> option obj.
Variable locals_of : pv -> str -> list (str * obj).
Variable x_is_class : X -> bool.
Variable x_from_parameters : X -> option (pv -> res obj).
Variable x_construct : X -> res obj.
Variable x_callable : X -> bool.
Variable x_call : X -> pv -> res obj.
Variables x_is_linear x_is_source x_is_sink : X -> bool.
Variable other_globals : list (str * obj).
Variable ZC : zip_codec.
Variable torn : bytes.
Variable set_order : list str -> list str.
Variables seeded_shuffle random_shuffle : Z -> list str -> list str.
Variable rglob_order : list (list str * bytes) -> list (list str * bytes).
Variable other_source : obj -> fsys -> res (source bytes).
Variable oeq : pv -> pv -> bool.
Variable other_sink : obj -> fsys -> (fsys -> stream value) -> fsys * option exn.
Notation split_main := (split_main X import_module other_eval builtin locals_of x_is_class x_from_parameters x_construct x_callable x_call x_is_linear cwd other_globals ZC torn set_order seeded_shuffle other_source oeq).
Notation join_main := (join_main X import_module other_eval builtin locals_of x_is_class x_from_parameters x_construct x_callable x_call x_is_sink cwd other_globals ZC torn set_order other_sink).
Notation downsample_main := (downsample_main X import_module other_eval builtin locals_of x_is_class x_from_parameters x_construct x_callable x_call x_is_source cwd other_globals ZC torn set_order random_shuffle other_source).
Notation directory_main := (directory_main X import_module other_eval builtin locals_of x_is_class x_from_parameters x_construct x_callable x_call x_is_sink cwd other_globals ZC torn set_order rglob_order other_sink).
Notation holds := (holds ZC).
Hypothesis set_order_perm : forall l, Permutation (set_order l) l.
Hypothesis seeded_perm : forall z l, Permutation (seeded_shuffle z l) l.
Hypothesis random_perm : forall z l, Permutation (random_shuffle z l) l.
Hypothesis rglob_perm : forall l, Permutation (rglob_order l) l.
Hypothesis cwd_proper : Forall proper cwd.

(** C95: join_key_value_stores from the command line. *)
Theorem C95_join : forall fuel args f ps q m fs lg l ms xs c d, fuel <> 0 -> wf_fs fs ->
  Forall (fun w => value_word w \/ w = !!"-p") args -> Spells args f ps -> leads fs cwd f q -> simple_file is_word parse fs q m -> compatible m ps ->
  let V := effective m ps in
  asks_level V l -> listed cwd V fs ms -> Forall2 (leads fs cwd) ms (map (fun x => fst (fst x)) xs) -> stores_ok ZC fs xs -> NoDup (stored_keys xs) ->
  zip_file V !!"output" (c :: d) -> unblocked fs d -> free fs (c :: d) -> ~ In (c :: d) (map (fun x => fst (fst x)) xs) ->
  exists fs' val, command join_main fuel args fs lg = Done fs' (MkLogger l (handlers lg ++ [l])) None /\ wf_fs fs' /\ holds fs' (c :: d) (stored_keys xs) val /\
    (forall q ks v k, In (q, ks, v) xs -> In k ks -> val k = v k) /\ only_writes fs fs' d [c :: d] /\ stores_ok ZC fs' xs.
Proof using pct_word parse_wf environ_names set_order_perm cwd_proper.
  clear oeq random_perm rglob_perm seeded_perm other_source rglob_order seeded_shuffle random_shuffle x_is_linear x_is_source.
  intros fuel args f ps q m fs lg l ms xs c d NF WF F Sp L SF CP V AL Li Lm So ND Z Ub Fr No.
  destruct (script_runs join_main (fun fs' e => e = None /\ exists val, wf_fs fs' /\ holds fs' (c :: d) (stored_keys xs) val /\
    (forall q ks v k, In (q, ks, v) xs -> In k ks -> val k = v k) /\ only_writes fs fs' d [c :: d] /\ stores_ok ZC fs' xs) fuel args f ps q m fs lg l NF F Sp L SF CP AL) as (fs' & e & E & -> & val & R).
  - intros P WP VP. fold V in VP. destruct (zip_typed V P !!"output" (c :: d) WP VP) as (ns & Ty & Nm); [vm_compute; intuition discriminate|exact Z|].
    destruct (C85_join X import_module other_eval builtin locals_of x_is_class x_from_parameters x_construct x_callable x_call x_is_sink cwd other_globals ZC torn set_order other_sink set_order_perm cwd_proper
      P fs ns c d xs WP WF) as (fs' & val & E & R); try assumption.
    + exists ms. split; [|exact Lm]. destruct Li as [q' b t ls Pq Lk D Pc K|ss Vs Ss].
      * apply (li_file cwd P fs ms q' b t ls); try assumption. apply (path_named V); try assumption. vm_compute; intuition discriminate.
      * apply (li_list cwd P fs ms ss); [|exact Ss]. apply view_stored; [exact WP|]. rewrite VP. exact Vs.
    + exists fs', None. split; [exact E|]. split; [reflexivity|]. exists val. exact R.
  - exists fs', val. split; [exact E|exact R].
Qed.

(** C95: downsample_key_value_store from the command line. *)
Theorem C95_downsample : forall fuel args f ps q m fs lg l qin ks val n c d, fuel <> 0 -> wf_fs fs ->
  Forall (fun w => value_word w \/ w = !!"-p") args -> Spells args f ps -> leads fs cwd f q -> simple_file is_word parse fs q m -> compatible m ps ->
  let V := effective m ps in
  asks_level V l -> zip_file V !!"input" qin -> V [!!"num_to_sample"] = Some (Leaf (PInt (Z.of_nat n))) -> n <> 0 -> (V [!!"random_seed"] = None \/ exists s, V [!!"random_seed"] = Some (Leaf (PInt s))) ->
  path_of V !!"output_zip_path" (c :: d) -> holds fs qin ks val -> (forall k, In k ks -> plain_key k) -> unblocked fs d -> free fs (c :: d) -> c :: d <> qin ->
  exists fs' kept, command downsample_main fuel args fs lg = Done fs' (MkLogger l (handlers lg ++ [l])) None /\ wf_fs fs' /\ holds fs' (c :: d) kept val /\
    NoDup kept /\ incl kept ks /\ length kept = Nat.min n (length ks) /\ only_writes fs fs' d [c :: d] /\ holds fs' qin ks val.
Proof using pct_word parse_wf environ_names set_order_perm random_perm cwd_proper.
  clear oeq rglob_perm seeded_perm other_sink rglob_order seeded_shuffle x_is_linear x_is_sink.
  intros fuel args f ps q m fs lg l qin ks val n c d NF WF F Sp L SF CP V AL Z Vn N0 Sd Po H PK Ub Fr Ne.
  destruct (script_runs downsample_main (fun fs' e => e = None /\ exists kept, wf_fs fs' /\ holds fs' (c :: d) kept val /\
    NoDup kept /\ incl kept ks /\ length kept = Nat.min n (length ks) /\ only_writes fs fs' d [c :: d] /\ holds fs' qin ks val) fuel args f ps q m fs lg l NF F Sp L SF CP AL) as (fs' & e & E & -> & kept & R).
  - intros P WP VP. fold V in VP. destruct (zip_typed V P !!"input" qin WP VP) as (ns & Ty & Nm); [vm_compute; intuition discriminate|exact Z|].
    assert (S1 : exists sv, ParamsSpec.Absent P !!"random_seed" \/ exists s, Stored P !!"random_seed" sv /\ int_value sv s).
    { destruct Sd as [Sd|(s & Sd)]; [exists PNone; left; apply view_absent; [exact WP|]; rewrite VP; exact Sd|]. exists (PInt s). right. exists s. split; [|constructor]. apply view_stored; [exact WP|]. rewrite VP. exact Sd. }
    destruct S1 as (sv & S1).
    destruct (C86_downsample X import_module other_eval builtin locals_of x_is_class x_from_parameters x_construct x_callable x_call (fun _ => false) x_is_source cwd other_globals ZC torn set_order (fun _ l => l) random_shuffle other_source (fun _ fs _ => (fs, None)) set_order_perm random_perm cwd_proper
      P fs ns qin ks val (PInt (Z.of_nat n)) n sv c d WP WF Ty Nm H PK) as (fs' & kept & E & R); try assumption.
    + apply view_stored; [exact WP|]. rewrite VP. exact Vn.
    + constructor.
    + apply (path_named V); try assumption. vm_compute; intuition discriminate.
    + exists fs', None. split; [exact E|]. split; [reflexivity|]. exists kept. exact R.
  - exists fs', kept. split; [exact E|exact R].
Qed.

(** C95: directory_to_key_value_store from the command line. *)
Theorem C95_directory : forall fuel args f ps q m fs lg l i strip c d, fuel <> 0 -> wf_fs fs ->
  Forall (fun w => value_word w \/ w = !!"-p") args -> Spells args f ps -> leads fs cwd f q -> simple_file is_word parse fs q m -> compatible m ps ->
  let V := effective m ps in
  asks_level V l -> path_of V !!"input_directory" i -> look fs i = Some KDir -> key_named V strip -> zip_file V !!"output" (c :: d) -> unblocked fs d -> free fs (c :: d) -> ~ below i (c :: d) ->
  (forall q b k, file_under fs i q b -> file_key strip q k -> plain_key k) ->
  (forall q q' b b' k, file_under fs i q b -> file_under fs i q' b' -> file_key strip q k -> file_key strip q' k -> q = q') ->
  exists fs' ks val, command directory_main fuel args fs lg = Done fs' (MkLogger l (handlers lg ++ [l])) None /\ wf_fs fs' /\ holds fs' (c :: d) ks val /\
    (forall k, In k ks <-> exists q b, file_under fs i q b /\ file_key strip q k) /\
    (forall q b k, file_under fs i q b -> file_key strip q k -> val k = b) /\ only_writes fs fs' d [c :: d].
Proof using pct_word parse_wf environ_names set_order_perm rglob_perm cwd_proper.
  clear oeq random_perm seeded_perm other_source random_shuffle seeded_shuffle x_is_linear x_is_source.
  intros fuel args f ps q m fs lg l i strip c d NF WF F Sp L SF CP V AL Pi Li Kf Z Ub Fr Nb PK Un.
  destruct (script_runs directory_main (fun fs' e => e = None /\ exists ks val, wf_fs fs' /\ holds fs' (c :: d) ks val /\
    (forall k, In k ks <-> exists q b, file_under fs i q b /\ file_key strip q k) /\
    (forall q b k, file_under fs i q b -> file_key strip q k -> val k = b) /\ only_writes fs fs' d [c :: d]) fuel args f ps q m fs lg l NF F Sp L SF CP AL) as (fs' & e & E & -> & ks & val & R).
  - intros P WP VP. fold V in VP. destruct (zip_typed V P !!"output" (c :: d) WP VP) as (ns & Ty & Nm); [vm_compute; intuition discriminate|exact Z|].
    destruct (C87_copy X import_module other_eval builtin locals_of x_is_class x_from_parameters x_construct x_callable x_call x_is_sink cwd other_globals ZC torn set_order rglob_order other_sink set_order_perm rglob_perm cwd_proper
      P fs ns c d i strip WP WF) as (fs' & ks & val & E & R); try assumption.
    + apply (path_named V); try assumption. vm_compute; intuition discriminate.
    + unfold key_named in Kf. unfold key_choice. destruct strip.
      * apply view_stored; [exact WP|]. rewrite VP. exact Kf.
      * destruct Kf as [U|U]; [left; apply view_missing|right; apply view_stored]; try exact WP; rewrite VP; exact U.
    + exists fs', None. split; [exact E|]. split; [reflexivity|]. exists ks, val. exact R.
  - exists fs', ks, val. split; [exact E|exact R].
Qed.

(** C95: split_key_value_store with explicit_split from the command line. *)
Theorem C95_explicit_split : forall fuel args f ps q m fs lg l qin ks val xs b, fuel <> 0 -> wf_fs fs ->
  Forall (fun w => value_word w \/ w = !!"-p") args -> Spells args f ps -> leads fs cwd f q -> simple_file is_word parse fs q m -> compatible m ps ->
  let V := effective m ps in
  asks_level V l -> zip_file V !!"input" qin -> holds fs qin ks val -> unset (V [!!"num_slices"]) -> parts_are V xs -> exhaustive_is V b ->
  (forall x, In x xs -> part_ok cwd V fs x /\ pt_out x <> qin) -> parts_apart xs -> (forall x k, In x xs -> In k (pt_keys x) -> In k ks) ->
  exists fs' e, command split_main fuel args fs lg = Done fs' (MkLogger l (handlers lg ++ [l])) e /\ wf_fs fs' /\
    (forall x, In x xs -> holds fs' (pt_out x) (pt_keys x) val) /\ writes_all fs fs' (map pt_out xs) /\ holds fs' qin ks val /\
    ((b = true -> forall k, In k ks -> exists x, In x xs /\ In k (pt_keys x)) -> e = None) /\
    (forall k, b = true -> In k ks -> (forall x, In x xs -> ~ In k (pt_keys x)) -> e = Some RuntimeError).
Proof using pct_word parse_wf environ_names set_order_perm cwd_proper.
  clear random_perm rglob_perm seeded_perm other_sink rglob_order random_shuffle x_is_source x_is_sink.
  intros fuel args f ps q m fs lg l qin ks val xs b NF WF F Sp L SF CP V AL Z H Un Pa Ex Ok_ Ap Kin.
  apply script_runs with (q := q) (ps := ps) (f := f) (m := m); try assumption.
  intros P WP VP. fold V in VP. destruct (zip_typed V P !!"input" qin WP VP) as (ns & Ty & Nm); [vm_compute; intuition discriminate|exact Z|].
  destruct Pa as (Ve & Nn & Names). destruct (view_namespace P !!"explicit_split" WP) as (sns & Wk & Ip & Wn & Vn); [rewrite VP; exact Ve|].
  destruct sns as [| | | | | | | | |pre d|]; try discriminate Ip. pose proof (proj1 Wn) as Wd. rewrite wf_map in Wd. destruct Wd as (Nd & Dl & _).
  assert (Vc : forall k c y, In (k, c) d -> view c y = V (!!"explicit_split" :: k :: y)).
  { intros k c y I. rewrite <- VP, <- Vn. cbn [view]. now rewrite (in_dfind d k c Nd I). }
  assert (Wc : forall k c, In (k, c) d -> is_params c = true -> wf_params c).
  { intros k c I Ic. split; [|exact Ic]. apply (wf_find pre d k); [apply Wn|]. now apply in_dfind. }
  destruct (match_parts xs d Nd) as (zs & Ez & I1 & Nz & I2).
  { intros k c I Ic. assert (Ik : In k (map pt_name xs)). { apply Names. rewrite <- (Vc k c [] I). destruct c; try discriminate Ic. reflexivity. } apply in_map_iff in Ik. destruct Ik as (x & Exn & Ix). eauto. }
  assert (I3 : forall x, In x xs -> exists c, In (x, c) zs).
  { intros x Ix. assert (En : V [!!"explicit_split"; pt_name x] = Some Namespace) by (apply Names; now apply in_map). rewrite <- VP, <- Vn in En. cbn [view] in En. destruct (dfind d (pt_name x)) as [c|] eqn:D; [|discriminate]. apply dfind_in in D.
    assert (Ic : is_params c = true). { destruct c; try discriminate En; [|reflexivity]. exfalso. pose proof (proj1 Wn) as W'. rewrite wf_map in W'. destruct W' as (_ & _ & W'). rewrite Forall_forall in W'. exact (W' _ D). }
    destruct (I2 _ c D Ic) as (y & Iy & Ey). destruct (I1 y c Iy) as (Iy' & _). exists c. rewrite (nodup_inj pt_name xs Nn x y Ix Iy' (eq_sym Ey)). exact Iy. }
  set (mk := fun z : part * pv => {| sp_ns := snd z; sp_file := pt_file (fst z); sp_keys := pt_keys (fst z); sp_out := pt_out (fst z) |}).
  destruct (C88_explicit X import_module other_eval builtin locals_of x_is_class x_from_parameters x_construct x_callable x_call x_is_linear (fun _ => false) cwd other_globals ZC torn set_order seeded_shuffle other_source oeq set_order_perm cwd_proper
    P fs ns qin ks val (PParams pre d) (map mk zs) b WP WF Ty Nm H) as (fs' & e & E & W' & R1 & R2 & R3 & R4 & R5).
  - apply view_missing; [exact WP|]. rewrite VP. exact Un.
  - apply stored_walk; [apply WP|]. exact Wk.
  - reflexivity.
  - cbn [children]. rewrite Ez, map_map. reflexivity.
  - destruct Ex as [(A & B)|A]; [left; split; [apply view_absent; [exact WP|]; rewrite VP; exact A|exact B]|right; apply view_stored; [exact WP|]; rewrite VP; exact A].
  - intros s I. apply in_map_iff in I. destruct I as ([x c] & <- & I). destruct (I1 x c I) as (Ix & Id & Ic). destruct (Ok_ x Ix) as ((A1 & A2 & A3 & A4 & A5 & A6 & A7 & A8 & A9) & B). split; [|exact B]. pose proof (Wc _ c Id Ic) as Wcc.
    split; [split; [exact Wcc|]; apply listless_view; [exact Wcc|]; intros y li; cbn [sp_ns mk snd]; rewrite (Vc _ c y Id); apply A9|].
    split; [apply (path_named (fun y => V (!!"explicit_split" :: pt_name x :: y))); [exact Wcc|intros y; apply (Vc _ c y Id)|vm_compute; intuition discriminate|exact A1]|].
    split; [exact A2|]. split; [exact A3|]. split; [exact A4|].
    split; [apply (path_named (fun y => V (!!"explicit_split" :: pt_name x :: y))); [exact Wcc|intros y; apply (Vc _ c y Id)|vm_compute; intuition discriminate|exact A5]|].
    split; [exact A6|]. split; [exact A7|exact A8].
  - destruct Ap as (No & Nb). split.
    + rewrite map_map. apply (nodup_by (fun z => pt_name (fst z))); [exact Nz|]. intros [x c] [y c'] Ix Iy Eo. cbn [mk sp_out fst] in *. f_equal. apply (nodup_inj pt_out xs No); [apply (I1 x c Ix)|apply (I1 y c' Iy)|exact Eo].
    + intros s s' Is Is'. apply in_map_iff in Is, Is'. destruct Is as ([x c] & <- & Ix), Is' as ([y c'] & <- & Iy). apply Nb; [apply (I1 x c Ix)|apply (I1 y c' Iy)].
  - intros s k I Ik. apply in_map_iff in I. destruct I as ([x c] & <- & I). exact (Kin x k (proj1 (I1 x c I)) Ik).
  - assert (Same : forall o, In o (map sp_out (map mk zs)) <-> In o (map pt_out xs)).
    { intros o. rewrite map_map, !in_map_iff. split.
      - intros ([x c] & Eo & I). exists x. split; [exact Eo|apply (I1 x c I)].
      - intros (x & Eo & Ix). destruct (I3 x Ix) as (c & I). exists (x, c). split; [exact Eo|exact I]. }
    exists fs', e. split; [exact E|]. split; [exact W'|]. split.
    { intros x Ix. destruct (I3 x Ix) as (c & I). exact (R1 (mk (x, c)) (in_map mk _ _ I)). }
    split; [|split; [exact R3|split]].
    + intros r Nr. destruct (R2 r) as [A|(A & B & o & Io & Bo)]; [intros I; apply Nr; now apply Same|left; exact A|].
      right. split; [exact A|]. split; [exact B|]. exists o. split; [now apply Same|exact Bo].
    + intros G. apply R4. intros Eb k Ik. destruct (G Eb k Ik) as (x & Ix & Ixk). destruct (I3 x Ix) as (c & I). exists (mk (x, c)). split; [apply in_map; exact I|exact Ixk].
    + intros k Eb Ik N. apply (R5 k Eb Ik). intros s Is. apply in_map_iff in Is. destruct Is as ([x c] & <- & I). apply N. apply (I1 x c I).
Qed.
End P.
