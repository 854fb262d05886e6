(** * Properties C84, C87, C88: runs of the scripts that are rejected *)
From Coq Require Import Sorted.
From Verif Require Import Prelude PyStr SortLib TextLib Utf8 Order Range Params ParamsSpec ParamsProofs ParamsGet ParamsGetProps ParamsEq SubNamespaces ParamsEval ParamsEvalProps Fs FsProofs FsProps PathLists PathListsProps Decimals Io IoProps KeyValue KeyValueProps KvParams KvParamsProps OsPath OsPathSpec OsPathProofs Scripts ScriptsProps Mains MainsProofs MainsProps.

Section P.
Variable X : Type.
Notation obj := (kv_obj X).
Variable import_module : str -> res obj.
Variable other_eval : str -> list (str * obj) -> res obj.
Variable builtin : str -> option obj.
Variable locals_of : pv -> str -> list (str * obj).
Variable x_is_class : X -> bool.
Variable x_from_parameters : X -> option (pv -> res obj).
Variable x_construct : X -> res obj.
Variable x_callable : X -> bool.
Variable x_call : X -> pv -> res obj.
Variables x_is_linear x_is_source x_is_sink : X -> bool.
Variable cwd : list str.
Variable other_globals : list (str * obj).
Variable ZC : zip_codec.
Variable torn : bytes.
Variable set_order : list str -> list str.
Variables seeded_shuffle random_shuffle : Z -> list str -> list str.
Variable rglob_order : list (list str * bytes) -> list (list str * bytes).
Variable other_source : obj -> list (list str * fnode) -> res (source bytes).
Variable other_sink : obj -> list (list str * fnode) -> (list (list str * fnode) -> stream value) -> list (list str * fnode) * option exn.
Variable oeq : pv -> pv -> bool.
Notation the_linear_source := (the_linear_source X import_module other_eval builtin locals_of x_is_class x_from_parameters x_construct x_callable x_call x_is_linear cwd other_globals).
Notation the_source := (the_source X import_module other_eval builtin locals_of x_is_class x_from_parameters x_construct x_callable x_call x_is_source cwd other_globals).
Notation the_sink := (the_sink X import_module other_eval builtin locals_of x_is_class x_from_parameters x_construct x_callable x_call x_is_sink cwd other_globals).
Notation open_source := (open_source X cwd ZC other_source).
Notation split_main := (split_main X import_module other_eval builtin locals_of x_is_class x_from_parameters x_construct x_callable x_call x_is_linear cwd other_globals ZC torn set_order seeded_shuffle other_source oeq).
Notation join_main := (join_main X import_module other_eval builtin locals_of x_is_class x_from_parameters x_construct x_callable x_call x_is_sink cwd other_globals ZC torn set_order other_sink).
Notation downsample_main := (downsample_main X import_module other_eval builtin locals_of x_is_class x_from_parameters x_construct x_callable x_call x_is_source cwd other_globals ZC torn set_order random_shuffle other_source).
Notation directory_main := (directory_main X import_module other_eval builtin locals_of x_is_class x_from_parameters x_construct x_callable x_call x_is_sink cwd other_globals ZC torn set_order rglob_order other_sink).
Notation holds := (holds ZC).
Notation put_disk := (put_disk ZC torn).
Notation put_slices := (put_slices ZC torn).
Hypothesis set_order_perm : forall l, Permutation (set_order l) l.
Hypothesis seeded_perm : forall z l, Permutation (seeded_shuffle z l) l.
Hypothesis random_perm : forall z l, Permutation (random_shuffle z l) l.
Hypothesis rglob_perm : forall l, Permutation (rglob_order l) l.
Hypothesis cwd_proper : Forall proper cwd.


(** ** Input that cannot be read *)
(** C84, C88: both kinds of split, with an input that is not a readable zip file: the run fails and nothing is changed. *)
Theorem C84_bad_input : forall p fs ns qin, wf_params p -> Typed p !!"input" !!"zip" ns -> names_path cwd ns !!"path" qin ->
  (forall b a, look fs qin = Some (KFile b) -> unzip ZC b <> Ok a) -> exists e, split_main p fs = (fs, Some e).
Proof.
  clear seeded_perm rglob_perm set_order_perm random_perm.
  intros p fs ns qin W T Hin Bad.
  assert (S0 : silent (@None (list (str * obj))) (source_class_name true true)) by (intros u E; discriminate).
  destruct (C83_zip_source X import_module other_eval builtin locals_of x_is_class x_from_parameters x_construct x_callable x_call x_is_linear x_is_source cwd other_globals fs true p !!"input" ns None W cwd_proper T S0) as (E & F & G & _).
  unfold Mains.split_main. destruct (assert_exactly_one_present p [!!"num_slices"; !!"explicit_split"]) as [u|e]; [|eauto].
  unfold Mains.the_linear_source. rewrite E. destruct (look fs qin) as [[b| |]|] eqn:L.
  - rewrite (F qin b Hin L). cbn [bind Mains.open_source]. unfold disk_at. rewrite L. destruct (unzip ZC b) as [a|x] eqn:Ux; [destruct (Bad b a eq_refl Ux)|]. cbn. eauto.
  - rewrite (G qin Hin) by congruence. cbn. eauto.
  - rewrite (G qin Hin) by congruence. cbn. eauto.
  - rewrite (G qin Hin) by congruence. cbn. eauto.
Qed.

(** ** directory_to_key_value_store *)
(** C87: input_directory absent, or no directory: the run fails and nothing is changed. *)
Theorem C87_no_directory : forall p fs, wf_params p ->
  (forall d, names_path cwd p !!"input_directory" d -> look fs d <> Some KDir -> directory_main p fs = (fs, Some ParameterError)) /\
  (forall e, names_none p !!"input_directory" e -> directory_main p fs = (fs, Some e)).
Proof.
  clear seeded_perm rglob_perm set_order_perm random_perm.
  intros p fs W. destruct (C80_existing cwd p !!"input_directory" fs W cwd_proper) as (_ & _ & _ & E4 & E5). unfold Mains.directory_main. split.
  - intros d Hd Nd. now rewrite (E4 d Hd Nd).
  - intros e He. destruct (E5 e He) as (_ & ->). reflexivity.
Qed.
(** C87: a key_function that is none of the two: the run fails and nothing is changed. *)
Theorem C87_bad_key_function : forall p fs d v, wf_params p -> names_path cwd p !!"input_directory" d -> look fs d = Some KDir ->
  Stored p !!"key_function" v -> v <> PNone -> v <> PStr !!"identity" -> v <> PStr !!"strip_one_extension" -> exists e, directory_main p fs = (fs, Some e) /\ wrong_type v e.
Proof.
  clear seeded_perm rglob_perm set_order_perm random_perm.
  intros p fs d v W Hd Ld Sv N0 N1 N2. destruct (C80_existing cwd p !!"input_directory" fs W cwd_proper) as (_ & _ & E3 & _). unfold Mains.directory_main. rewrite (E3 d Hd Ld).
  unfold key_function. destruct (C46_optional_getters (fun _ => true) p !!"key_function" W) as (G & _). destruct (G (Some [!!"identity"; !!"strip_one_extension"]) PNone) as (_ & G2 & _).
  destruct (G2 v Sv N0) as (e & -> & WT); [|cbn [bind]; eauto].
  intros (s & -> & V). destruct (V _ eq_refl) as [<-|[<-|[]]]; [exact (N1 eq_refl)|exact (N2 eq_refl)].
Qed.
(** C87: a file in the place of a directory on the way to the output: the run fails and nothing is changed. *)
Theorem C87_blocked_output : forall p fs ns c o d strip a, wf_params p -> wf_fs fs -> names_path cwd p !!"input_directory" d -> look fs d = Some KDir -> key_choice p strip ->
  Typed p !!"output" !!"zip" ns -> names_path cwd ns !!"path" (c :: o) -> below a o -> occupied fs a -> exists e, directory_main p fs = (fs, Some e) /\ (e = FileExistsError \/ e = NotADirectoryError).
Proof.
  clear seeded_perm rglob_perm set_order_perm random_perm.
  intros p fs ns c o d strip a W F Hd Ld Kc T H B Oc. unfold Mains.directory_main. destruct (C80_existing cwd p !!"input_directory" fs W cwd_proper) as (_ & _ & E1 & _). rewrite (E1 d Hd Ld).
  assert (key_function p = Ok strip) as ->.
  { unfold key_function. destruct (C46_optional_getters (fun _ => true) p !!"key_function" W) as (G & _). destruct (G (Some [!!"identity"; !!"strip_one_extension"]) PNone) as (G1 & _ & G3). unfold key_choice in Kc.
    destruct strip; [|destruct Kc as [Kc|Kc]].
    - rewrite (G1 _ Kc); [reflexivity|discriminate|]. eexists. split; [reflexivity|]. intros l El. injection El as <-. simpl. auto.
    - rewrite (G3 Kc). reflexivity.
    - rewrite (G1 _ Kc); [reflexivity|discriminate|]. eexists. split; [reflexivity|]. intros l El. injection El as <-. simpl. auto. }
  assert (S1 : silent (Some (map (fun n => (n, @ONone X)) directory_locals)) (sink_class_name true true)).
  { intros u E I. injection E as <-. unfold keys in I. simpl in I. intuition discriminate. }
  destruct (C83_zip_sink X import_module other_eval builtin locals_of x_is_class x_from_parameters x_construct x_callable x_call x_is_sink cwd other_globals fs true p !!"output" ns _ W cwd_proper F T S1) as (M & _).
  destruct (M c o H) as (fs' & r & Mk & E). unfold Mains.the_sink. rewrite E. destruct Mk as (_ & M2 & M3).
  destruct (list_eq_dec (list_eq_dec N.eq_dec) a o) as [->|Na].
  - assert (Q := M2 Oc). injection Q as -> ->. cbn [bind]. eauto.
  - assert (Q := M3 a B Na Oc). injection Q as -> ->. cbn [bind]. eauto.
Qed.

(** ** Explicit splits *)
Lemma unequal_snoc l c : no_two_equal (peq oeq) l -> (forall x, In x l -> peq oeq x c = false) -> no_two_equal (peq oeq) (l ++ [c]).
Proof.
  clear. unfold no_two_equal. induction 1 as [|x l Fx D IH]; intros H; cbn [app]; [repeat constructor|]. constructor; [|apply IH; intros y I; apply H; now right]. apply Forall_app. split; [assumption|]. constructor; [apply H; now left|constructor].
Qed.
(** C88: a split whose keys_file is no file: the run fails; the outputs of the splits before it are complete, and nothing else is written. *)
Theorem C88_no_keys_file : forall p fs ns qin ks val sns xs c q rest, wf_params p -> wf_fs fs ->
  Typed p !!"input" !!"zip" ns -> names_path cwd ns !!"path" qin -> holds fs qin ks val ->
  Missing p !!"num_slices" -> Stored p !!"explicit_split" sns -> is_params sns = true -> children sns = map sp_ns xs ++ c :: rest -> (forall x, In x (c :: rest) -> no_list_inside x) ->
  (forall s, In s xs -> split_ok cwd fs s /\ sp_out s <> qin) -> apart xs -> (forall s k, In s xs -> In k (sp_keys s) -> In k ks) ->
  wf_params c -> names_path cwd c !!"keys_file" q -> (forall b, look fs q <> Some (KFile b)) -> (forall s, In s xs -> sp_out s <> q) ->
  exists fs', split_main p fs = (fs', Some ParameterError) /\ wf_fs fs' /\ (forall s, In s xs -> holds fs' (sp_out s) (sp_keys s) val) /\ writes_all fs fs' (map sp_out xs) /\ holds fs' qin ks val.
Proof.
  clear random_perm rglob_perm seeded_perm.
  intros p fs ns qin ks val sns xs c q rest W F T Hin C Mn Se Te Ch NL0 Ok_ A In0 Wc Hq Nf No.
  assert (NL : forall x, In x (children sns) -> no_list_inside x).
  { rewrite Ch. intros x I. apply in_app_iff in I. destruct I as [I|I]; [|exact (NL0 x I)]. apply in_map_iff in I. destruct I as (s0 & <- & I). apply (Ok_ s0 I). }
  destruct (opens_explicit X import_module other_eval builtin locals_of x_is_class x_from_parameters x_construct x_callable x_call x_is_linear x_is_source cwd other_globals ZC torn set_order seeded_shuffle other_source oeq cwd_proper fs p ns qin ks val sns W T Hin C Mn Se Te NL) as (later & z & ks' & -> & La & _ & En & Pk & Kz & G1 & G2).
  destruct (splits_from cwd ZC torn set_order set_order_perm cwd_proper later qin (zip_source same_name bytes_value z) ks val [] La G1 xs fs F) as (fs1 & F1 & Hs & WA & _ & More).
  { intros s' I. rewrite app_nil_r in I. now apply Ok_. } { intros s' I. now apply Ok_. } { now rewrite app_nil_r. } { assumption. }
  assert (Hf : exists r, first_of_equal (peq oeq) [] (children sns) = map sp_ns xs ++ c :: r).
  { destruct (first_front (peq oeq) (map sp_ns xs ++ [c]) rest) as (r & Er & _).
    - apply unequal_snoc; [exact (splits_unequal cwd oeq fs xs (fun s' I => proj1 (Ok_ s' I)) (proj1 A))|]. intros x I. apply in_map_iff in I. destruct I as (s & <- & I). destruct (peq oeq (sp_ns s) c) eqn:Q; [|reflexivity]. exfalso.
      destruct (Ok_ s I) as (((Ws & _) & (t & S1 & R1) & (b & _ & _ & _ & Lk & _) & _) & _). destruct Hq as (t' & S1' & R1').
      assert (t = t') by (apply (peq_walk_str oeq (sp_ns s) c (py_split dot !!"keys_file")); [exact Q|apply Ws|apply Wc|apply walk_reaches; [apply Ws|exact S1]|apply walk_reaches; [apply Wc|exact S1']]). subst t'. assert (sp_file s = q) as E by congruence. rewrite E in Lk. exact (Nf b Lk).
    - exists r. rewrite Ch. rewrite <- app_assoc in Er. cbn [app] in Er. rewrite Er, <- app_assoc. reflexivity. }
  destruct Hf as (rest' & Hf). destruct (More [] []) as (more & _ & _ & M2); [intros []|]. specialize (M2 (c :: rest')).
  assert (Nf1 : forall b, look fs1 q <> Some (KFile b)).
  { intros b. destruct (WA q) as [->|(_ & -> & _)]; [|apply Nf|discriminate]. intros I. apply in_map_iff in I. destruct I as (s & E & I). exact (No s I E). }
  destruct (C80_existing cwd c !!"keys_file" fs1 Wc cwd_proper) as (_ & E2 & _).
  exists fs1. unfold split_explicit. rewrite En, Hf, M2. cbn [split_namespaces]. rewrite (E2 q Hq Nf1). cbn [bind]. split; [reflexivity|]. split; [assumption|]. split; [assumption|]. split; [assumption|].
  apply (writes_keeps ZC fs fs1 (map sp_out xs)); [assumption| |assumption]. intros I. apply in_map_iff in I. destruct I as (s & E & I). now apply (Ok_ s I).
Qed.
(** C88: a split whose output cannot be made, as there is a file (possibly the output of a split before it) in the place of a directory on the way to it: the run fails; the outputs
    of the splits before it are complete, and nothing else is written. *)
Theorem C88_blocked_output : forall p fs ns qin ks val sns xs c q b t o' o a rest, wf_params p -> wf_fs fs ->
  Typed p !!"input" !!"zip" ns -> names_path cwd ns !!"path" qin -> holds fs qin ks val ->
  Missing p !!"num_slices" -> Stored p !!"explicit_split" sns -> is_params sns = true -> children sns = map sp_ns xs ++ c :: rest -> (forall x, In x (c :: rest) -> no_list_inside x) ->
  (forall s, In s xs -> split_ok cwd fs s /\ sp_out s <> qin) -> apart xs -> (forall s k, In s xs -> In k (sp_keys s) -> In k ks) ->
  wf_params c -> names_path cwd c !!"keys_file" q -> look fs q = Some (KFile b) -> decode b = Ok t -> (forall s, In s xs -> sp_out s <> q) ->
  names_path cwd c !!"output_file" (o' :: o) -> below a o -> occupied fs a \/ (exists s, In s xs /\ a = sp_out s) ->
  exists fs' e, split_main p fs = (fs', Some e) /\ (e = FileExistsError \/ e = NotADirectoryError) /\ wf_fs fs' /\
    (forall s, In s xs -> holds fs' (sp_out s) (sp_keys s) val) /\ writes_all fs fs' (map sp_out xs) /\ holds fs' qin ks val.
Proof.
  clear random_perm rglob_perm seeded_perm.
  intros p fs ns qin ks val sns xs c q b t o' o a rest W F T Hin C Mn Se Te Ch NL0 Ok_ A In0 Wc Hq Lq Dq No Ho B Oc.
  assert (NL : forall x, In x (children sns) -> no_list_inside x).
  { rewrite Ch. intros x I. apply in_app_iff in I. destruct I as [I|I]; [|exact (NL0 x I)]. apply in_map_iff in I. destruct I as (s0 & <- & I). apply (Ok_ s0 I). }
  destruct (opens_explicit X import_module other_eval builtin locals_of x_is_class x_from_parameters x_construct x_callable x_call x_is_linear x_is_source cwd other_globals ZC torn set_order seeded_shuffle other_source oeq cwd_proper fs p ns qin ks val sns W T Hin C Mn Se Te NL) as (later & z & ks' & -> & La & _ & En & Pk & Kz & G1 & G2).
  destruct (splits_from cwd ZC torn set_order set_order_perm cwd_proper later qin (zip_source same_name bytes_value z) ks val [] La G1 xs fs F) as (fs1 & F1 & Hs & WA & _ & More).
  { intros s' I. rewrite app_nil_r in I. now apply Ok_. } { intros s' I. now apply Ok_. } { now rewrite app_nil_r. } { assumption. }
  assert (Hf : exists r, first_of_equal (peq oeq) [] (children sns) = map sp_ns xs ++ c :: r).
  { destruct (first_front (peq oeq) (map sp_ns xs ++ [c]) rest) as (r & Er & _).
    - apply unequal_snoc; [exact (splits_unequal cwd oeq fs xs (fun s' I => proj1 (Ok_ s' I)) (proj1 A))|]. intros x I. apply in_map_iff in I. destruct I as (s & <- & I). destruct (peq oeq (sp_ns s) c) eqn:Q; [|reflexivity]. exfalso.
      destruct (Ok_ s I) as (((Ws & _) & _ & _ & _ & _ & (t1 & S1 & R1) & _ & Us & _) & _). destruct Ho as (t' & S1' & R1').
      assert (t1 = t') by (apply (peq_walk_str oeq (sp_ns s) c (py_split dot !!"output_file")); [exact Q|apply Ws|apply Wc|apply walk_reaches; [apply Ws|exact S1]|apply walk_reaches; [apply Wc|exact S1']]). subst t'. assert (sp_out s = o' :: o) as E by congruence. destruct Oc as [Oc|(s2 & I2 & ->)].
      + apply (Us a); [now rewrite E|assumption].
      + destruct A as (_ & A2). destruct (A2 s2 s I2 I) as (A3 & _). apply A3. now rewrite E.
    - exists r. rewrite Ch. rewrite <- app_assoc in Er. cbn [app] in Er. rewrite Er, <- app_assoc. reflexivity. }
  destruct Hf as (rest' & Hf). destruct (More [] []) as (more & _ & _ & M2); [intros []|]. specialize (M2 (c :: rest')).
  assert (L1 : look fs1 q = Some (KFile b)).
  { destruct (WA q) as [->|(E & _)]; [|assumption|congruence]. intros I. apply in_map_iff in I. destruct I as (s & E & I). exact (No s I E). }
  assert (O1 : occupied fs1 a).
  { destruct (in_dec (list_eq_dec (list_eq_dec N.eq_dec)) a (map sp_out xs)) as [I|N].
    - apply in_map_iff in I. destruct I as (s & <- & I). destruct (holds_file _ _ _ _ _ (Hs s I)) as (b1 & a1 & L & _). exists (KFile b1). split; [exact L|discriminate].
    - destruct Oc as [(k & L & Nk)|(s & I & ->)]; [|destruct N; now apply in_map]. destruct (WA a N) as [E|(E & _)]; [|congruence]. exists k. split; [congruence|assumption]. }
  destruct (C80_existing cwd c !!"keys_file" fs1 Wc cwd_proper) as (E1 & _).
  destruct (C80_creatable cwd c !!"output_file" fs1 Wc cwd_proper F1) as (_ & M & _). destruct (M o' o Ho) as (_ & Y2 & Y3).
  assert (R : exists e, creatable_file cwd c !!"output_file" fs1 = (fs1, Raise e) /\ (e = FileExistsError \/ e = NotADirectoryError)).
  { destruct (list_eq_dec (list_eq_dec N.eq_dec) a o) as [->|Na]; [rewrite (Y2 O1)|rewrite (Y3 a B Na O1)]; eauto. }
  destruct R as (e & R & Re). exists fs1, e. unfold split_explicit. rewrite En, Hf, M2. cbn [split_namespaces]. rewrite (E1 q b Hq L1). cbn [bind]. unfold read_text. rewrite L1, Dq. cbn [bind]. rewrite R. split; [reflexivity|]. split; [assumption|]. split; [assumption|]. split; [assumption|]. split; [assumption|].
  apply (writes_keeps ZC fs fs1 (map sp_out xs)); [assumption| |assumption]. intros I. apply in_map_iff in I. destruct I as (s & E & I). now apply (Ok_ s I).
Qed.

(** ** Outputs that cannot be made *)
(** C84: a file in the place of output_dir, or of a directory above it: the run fails and nothing is changed, whatever the other parameters are. *)
Theorem C84_blocked_output : forall p fs nv dir a, wf_params p -> wf_fs fs -> Stored p !!"num_slices" nv -> nv <> PNone ->
  names_path cwd p !!"output_dir" dir -> below a dir -> occupied fs a -> exists e, split_main p fs = (fs, Some e).
Proof.
  clear seeded_perm rglob_perm set_order_perm random_perm.
  intros p fs nv dir a W F S N H B Oc. unfold Mains.split_main. destruct (assert_exactly_one_present p [!!"num_slices"; !!"explicit_split"]) as [u|e]; [|eauto].
  destruct (let* o := the_linear_source fs p in let* src := open_source fs o in Ok (read_later X cwd ZC other_source o src)) as [later|e]; [|eauto].
  assert (Params.contains p !!"num_slices" = true) as -> by (apply ParamsGet.contains_spec; [apply W|]; eauto).
  unfold split_slices. destruct (C80_creatable cwd p !!"output_dir" fs W cwd_proper F) as (M & _). destruct (M dir H) as (_ & M2 & M3).
  destruct (list_eq_dec (list_eq_dec N.eq_dec) a dir) as [->|Na]; [rewrite (M2 Oc)|rewrite (M3 a B Na Oc)]; eauto.
Qed.
(** C86: ... of a directory above output_zip_path: likewise *)
Theorem C86_blocked_output : forall p fs c o a, wf_params p -> wf_fs fs ->
  names_path cwd p !!"output_zip_path" (c :: o) -> below a o -> occupied fs a -> exists e, downsample_main p fs = (fs, Some e).
Proof.
  clear seeded_perm rglob_perm set_order_perm random_perm.
  intros p fs c o a W F H B Oc. unfold Mains.downsample_main.
  destruct (let* o := the_source fs p in let* src := open_source fs o in Ok (read_later X cwd ZC other_source o src)) as [later|e]; [|eauto].
  destruct (src_keys (later fs [])) as [[keys|]|e]; [|eauto|eauto]. destruct (positive_integer p !!"num_to_sample" PNone) as [nv|e]; [|eauto].
  destruct (integer p !!"random_seed" (PInt 0) (MkRange BelowAll AboveAll)) as [sv|e]; [|eauto].
  destruct (C80_creatable cwd p !!"output_zip_path" fs W cwd_proper F) as (_ & M & _). destruct (M c o H) as (_ & M2 & M3).
  destruct (list_eq_dec (list_eq_dec N.eq_dec) a o) as [->|Na]; [rewrite (M2 Oc)|rewrite (M3 a B Na Oc)]; eauto.
Qed.
(** C85: ... of a directory above the output: likewise *)
Theorem C85_blocked_output : forall p fs ns c o a, wf_params p -> wf_fs fs ->
  Typed p !!"output" !!"zip" ns -> names_path cwd ns !!"path" (c :: o) -> below a o -> occupied fs a -> exists e, join_main p fs = (fs, Some e).
Proof.
  clear seeded_perm rglob_perm set_order_perm random_perm.
  intros p fs ns c o a W F T H B Oc. unfold Mains.join_main. destruct (path_list_from_file cwd p !!"input_store_list_file" None fs) as [paths|e]; [|eauto].
  assert (S1 : silent (Some (map (fun n => (n, @ONone X)) join_locals)) (sink_class_name true true)).
  { intros u E I. injection E as <-. unfold keys in I. simpl in I. intuition discriminate. }
  destruct (C83_zip_sink X import_module other_eval builtin locals_of x_is_class x_from_parameters x_construct x_callable x_call x_is_sink cwd other_globals fs true p !!"output" ns _ W cwd_proper F T S1) as (M & _).
  destruct (M c o H) as (fs' & r & Mk & E). unfold Mains.the_sink. rewrite E. destruct Mk as (_ & M2 & M3).
  destruct (list_eq_dec (list_eq_dec N.eq_dec) a o) as [->|Na].
  - assert (Q := M2 Oc). injection Q as -> ->. cbn [bind]. eauto.
  - assert (Q := M3 a B Na Oc). injection Q as -> ->. cbn [bind]. eauto.
Qed.
(** C85: an input_store_list_file that is absent, or names no file, or a file that is no UTF-8 text, or is a list of other things than strings, or neither a string nor a list: the run fails and nothing
    is changed. *)
Theorem C85_bad_list : forall p fs, wf_params p ->
  ParamsSpec.Absent p !!"input_store_list_file" \/ (exists q, names_path cwd p !!"input_store_list_file" q /\ forall b t, look fs q = Some (KFile b) -> decode b <> Ok t) \/
  (exists vs v, Stored p !!"input_store_list_file" (PList vs) /\ In v vs /\ forall s, v <> PStr s) \/
  (exists v, Stored p !!"input_store_list_file" v /\ (forall s, v <> PStr s) /\ forall l, v <> PList l) ->
  exists e, join_main p fs = (fs, Some e).
Proof.
  clear seeded_perm rglob_perm set_order_perm random_perm.
  intros p fs W H. destruct (C81_path_list cwd p !!"input_store_list_file" None fs W cwd_proper) as (_ & E2 & E3 & _ & E5 & E6 & E7). unfold Mains.join_main.
  destruct H as [H|[(q & Hq & Nq)|[(vs & v & S & I & N)|(v & S & N1 & N2)]]].
  - rewrite (E7 H). eauto.
  - destruct (look fs q) as [[b| |]|] eqn:L.
    + destruct (decode b) as [t|e] eqn:D; [destruct (Nq b t eq_refl D)|]. rewrite (E2 q b e Hq L D). eauto.
    + rewrite (E3 q Hq) by congruence. eauto.
    + rewrite (E3 q Hq) by congruence. eauto.
    + rewrite (E3 q Hq) by congruence. eauto.
  - destruct (E5 vs v S I N) as [->| ->]; eauto.
  - destruct (E6 v S N1 N2) as (e & -> & _). eauto.
Qed.
End P.
