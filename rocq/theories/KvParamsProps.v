(** * Property C83: key-value stores chosen by parameters *)
From Verif Require Import Prelude PyStr TextLib Utf8 Params ParamsSpec ParamsProofs ParamsGet ParamsEval ParamsEvalProps Fs FsProofs FsProps PathLists SortLib Io IoProps PathListsProps KvParams.

(** A store described by the namespace [name]: it holds the type [t], no "value" and no "import". *)
Definition Typed (p : pv) (name t : str) (ns : pv) : Prop :=
  Stored p name ns /\ is_params ns = true /\ Stored ns !!"type" (PStr t) /\ Missing ns !!"value" /\ Missing ns !!"import".
(** The caller's context binds [n] to [o] / does not bind [n]. *)
Definition binds {A} (user : option (list (str * A))) (n : str) (o : A) : Prop := exists u, user = Some u /\ In (n, o) u /\ NoDup (keys u).
Definition silent {A} (user : option (list (str * A))) (n : str) : Prop := forall u, user = Some u -> ~ In n (keys u).
(** The names of the classes that the shortcuts stand for. *)
Definition sink_class_name (zip bytes_ : bool) : str :=
  match zip, bytes_ with
  | true, true => !!"_ZipBytesFileKeyValueSink" | true, false => !!"_ZipCharFileKeyValueSink"
  | false, true => !!"_DirectoryBytesKeyValueSink" | false, false => !!"_DirectoryCharKeyValueSink"
  end.
Definition source_class_name (zip bytes_ : bool) : str :=
  match zip, bytes_ with
  | true, true => !!"_ZipBytesFileKeyValuesSource" | true, false => !!"_ZipCharFileKeyValuesSource"
  | false, true => !!"_PathMappingBytesKeyValueSource" | false, false => !!"_PathMappingCharKeyValueSource"
  end.

Section P.
Variable X : Type.
Notation obj := (kv_obj X).
Variable import_module : str -> res obj.
Variable other_eval : str -> list (str * obj) -> res obj.
Variable builtin : str -> option obj.
Variable locals_of : pv -> str -> list (str * obj).
Variable x_is_class : X -> bool.
Variable x_from_parameters : X -> option (pv -> res obj).
Variable x_construct : X -> res obj.
Variable x_callable : X -> bool.
Variable x_call : X -> pv -> res obj.
Variables x_is_linear x_is_source x_is_sink : X -> bool.
Variable cwd : list str.
Variable other_globals : list (str * obj).
Notation fsys := (list (list str * fnode)).
Notation store fs := (store_from_params X import_module other_eval builtin locals_of x_is_class x_from_parameters x_construct x_callable x_call cwd fs other_globals).
Notation linear fs := (linear_source_from_params X import_module other_eval builtin locals_of x_is_class x_from_parameters x_construct x_callable x_call x_is_linear cwd fs other_globals).
Notation source fs := (source_from_params X import_module other_eval builtin locals_of x_is_class x_from_parameters x_construct x_callable x_call x_is_source cwd fs other_globals).
Notation sink fs := (sink_from_params X import_module other_eval builtin locals_of x_is_class x_from_parameters x_construct x_callable x_call x_is_sink cwd fs other_globals).
Notation py_eval := (py_eval X other_eval builtin).
Notation effective_context := (effective_context X other_globals).
Notation apply_factory fs := (apply_factory obj (is_class X x_is_class) (from_parameters X x_from_parameters cwd fs) (construct X x_construct) (callable X x_callable) (call X x_call cwd fs)).

Lemma fold_dput_nonempty {A} (u : list (str * A)) : forall d, d <> [] -> fold_left (fun c kv => dput c (fst kv) (snd kv)) u d <> [].
Proof. induction u as [|[k v] u IH]; intros d N; simpl; [assumption|]. apply IH. destruct d as [|[k' v'] d]; [congruence|]. simpl. destruct (str_eqb k' k); discriminate. Qed.
Lemma fold_dput_none {A} (u : list (str * A)) n : forall d, ~ In n (keys u) -> dfind (fold_left (fun c kv => dput c (fst kv) (snd kv)) u d) n = dfind d n.
Proof.
  induction u as [|[k v] u IH]; intros d N; cbn [fold_left]; [reflexivity|]. cbn [fst snd]. rewrite IH by (intros I; apply N; simpl; auto). rewrite dfind_dput.
  destruct (str_eqb k n) eqn:E; [|reflexivity]. apply str_eqb_eq in E. destruct N. simpl. auto.
Qed.
Lemma fold_dput_some {A} (u : list (str * A)) n o : NoDup (keys u) -> In (n, o) u -> forall d, dfind (fold_left (fun c kv => dput c (fst kv) (snd kv)) u d) n = Some o.
Proof.
  induction u as [|[k v] u IH]; intros D I d; [destruct I|]. unfold keys in D. cbn [map fst] in D. inversion D as [|? ? N D']; subst. cbn [fold_left fst snd]. destruct I as [E|I].
  - injection E as -> ->. rewrite fold_dput_none by exact N. rewrite dfind_dput, str_eqb_refl. reflexivity.
  - now apply IH.
Qed.
Lemma context_binds user n o : binds user n o -> dfind (effective_context user) n = Some o.
Proof. intros (u & -> & I & D). now apply fold_dput_some. Qed.
Lemma dfind_app_some {A} (a b : list (str * A)) n o : dfind a n = Some o -> dfind (a ++ b) n = Some o.
Proof. induction a as [|[k v] a IH]; simpl; [discriminate|]. destruct (str_eqb k n); auto. Qed.
Lemma context_silent user n o : silent user n -> dfind (store_globals X) n = Some o -> dfind (effective_context user) n = Some o.
Proof.
  intros H F. unfold KvParams.effective_context. destruct user as [u|]; [rewrite fold_dput_none by now apply H|]; now apply dfind_app_some.
Qed.
(** What all functions do with a configuration giving a type. *)
Lemma typed_result fs p name t ns ty shortcuts df user : wf_params p -> Typed p name t ns ->
  store fs p name ty shortcuts df user =
    let* f := wrap_param (py_eval (match dfind shortcuts t with Some o => o | None => OStr t end) (effective_context user)) in
    let* o := apply_factory fs f ns in
    if ty o then Ok o else Raise ParameterError.
Proof.
  intros WP (Sn & T & St & Mv & Mi). destruct WP as [W IP]. unfold store_from_params, ParamsEval.object_from_parameters.
  assert (contains p name = true) as ->. { apply contains_spec; [assumption|]. exists ns. split; [assumption|]. intros ->. discriminate. }
  assert (has_namespace p name = true) as ->. { unfold has_namespace. destruct (private_get_spec p name true PNone W) as [G _]. now rewrite (G ns (cand_stored _ _ _ _ Sn)). }
  assert (namespace p name = Ok ns) as ->. { unfold namespace. destruct (get_spec p name is_params PNone W) as (G & _ & _). apply G; [now constructor|assumption]. }
  cbn [bind]. assert (Wn := stored_wf _ _ _ W Sn).
  assert (Pt : present_ ns !!"type") by (exists (PStr t); split; [assumption|discriminate]).
  rewrite (proj2 (exactly_one ns !!"value" !!"type" Wn)) by auto. cbn [bind].
  rewrite (proj2 (contains_false _ _ Wn) Mv). rewrite (proj2 (present_contains _ _ Wn) Pt).
  unfold evaluate. destruct (optional_namespace_spec p name W) as (ns' & -> & Hn & Hs). cbn [bind].
  assert (is_params ns' = true) as Tn by (apply Hn; eauto). rewrite Tn. assert (ns' = ns) as -> by (eapply stored_unique; [exact W|apply Hs; exact Tn|exact Sn]).
  rewrite (proj2 (string_spec ns !!"type" (PStr t) Wn)) by auto. cbn [bind str_of].
  rewrite (proj2 (imports_spec ns PNone Wn)) by (left; auto). cbn [bind list_of].
  assert (or_else obj (Some (effective_context user)) (locals_of p name) = effective_context user) as ->.
  { unfold or_else. destruct (effective_context user) eqn:E; [|reflexivity]. exfalso. revert E. apply fold_dput_nonempty. discriminate. }
  unfold eval_in_context_of_modules. cbn [import_all foldM bind]. match goal with |- context [py_eval ?c ?x] => destruct (py_eval c x) end; reflexivity.
Qed.
Lemma eval_name n c o : is_name n = true -> dfind c n = Some o -> py_eval (OStr n) c = Ok o.
Proof. intros I F. unfold KvParams.py_eval. now rewrite I, F. Qed.
Lemma class_result fs p name t ns ty shortcuts df user n c : wf_params p -> Typed p name t ns -> dfind shortcuts t = Some (OStr n) -> silent user n ->
  dfind (store_globals X) n = Some (OClass c) -> is_name n = true ->
  store fs p name ty shortcuts df user = let* o := match class_from_parameters X cwd fs c with Some f => f ns | None => class_construct X c end in if ty o then Ok o else Raise ParameterError.
Proof.
  intros W T D S1 G I. rewrite (typed_result fs p name t ns ty shortcuts df user W T), D, (eval_name n _ (OClass c) I (context_silent user n _ S1 G)). reflexivity.
Qed.
Ltac by_class fs p name t ns user n c W T S1 :=
  match goal with
  | |- context [store fs p name ?ty ?sh ?df user] => rewrite (class_result fs p name t ns ty sh df user n c W T eq_refl S1 eq_refl eq_refl)
  end.

Lemma wf_ns p name t ns : wf_params p -> Typed p name t ns -> wf_params ns.
Proof. intros W (Sn & T & _). split; [eapply stored_wf; [apply W|eassumption]|assumption]. Qed.
Lemma zip_sink_eq fs bytes_ p name ns user : wf_params p -> Typed p name !!"zip" ns -> silent user (sink_class_name true bytes_) ->
  sink fs bytes_ p name user = let (fs', r) := creatable_file cwd ns !!"path" fs in let* q := r in Ok (OZipSink bytes_ q fs').
Proof.
  intros W T S1. unfold sink_from_params.
  destruct bytes_; [by_class fs p name !!"zip" ns user !!"_ZipBytesFileKeyValueSink" (ZipSinkClass true) W T S1|by_class fs p name !!"zip" ns user !!"_ZipCharFileKeyValueSink" (ZipSinkClass false) W T S1];
  cbn [class_from_parameters]; destruct (creatable_file cwd ns !!"path" fs) as [fs' [q|e]]; reflexivity.
Qed.
(** C83: "type: zip" makes a sink writing the zip file named by "path" in the same namespace; its parent directories are made. *)
Theorem C83_zip_sink : forall fs bytes_ p name ns user, wf_params p -> Forall proper cwd -> wf_fs fs ->
  Typed p name !!"zip" ns -> silent user (sink_class_name true bytes_) ->
  (forall c d, names_path cwd ns !!"path" (c :: d) ->
     exists fs' r, makes fs d (c :: d) (fs', r) /\ sink fs bytes_ p name user = let* q := r in Ok (OZipSink bytes_ q fs')) /\
  (forall e, names_none ns !!"path" e -> sink fs bytes_ p name user = Raise e).
Proof.
  intros fs bytes_ p name ns user W C F T S1. assert (Wn := wf_ns p name _ ns W T). rewrite (zip_sink_eq fs bytes_ p name ns user W T S1).
  destruct (C80_creatable cwd ns !!"path" fs Wn C F) as (_ & M & _ & N). split.
  - intros c d H. specialize (M c d H). destruct (creatable_file cwd ns !!"path" fs) as [fs' r]. exists fs', r. auto.
  - intros e H. destruct (N e H) as [_ ->]. reflexivity.
Qed.
(** C83: "type: zip" makes a source reading the zip file named by "path", which must be an existing file. *)
Theorem C83_zip_source : forall fs bytes_ p name ns user, wf_params p -> Forall proper cwd ->
  Typed p name !!"zip" ns -> silent user (source_class_name true bytes_) ->
  linear fs bytes_ p name user = source fs bytes_ p name user /\
  (forall q b, names_path cwd ns !!"path" q -> look fs q = Some (KFile b) -> source fs bytes_ p name user = Ok (OZipSource bytes_ q)) /\
  (forall q, names_path cwd ns !!"path" q -> (forall b, look fs q <> Some (KFile b)) -> source fs bytes_ p name user = Raise ParameterError) /\
  (forall e, names_none ns !!"path" e -> source fs bytes_ p name user = Raise e).
Proof.
  intros fs bytes_ p name ns user W C T S1. assert (Wn := wf_ns p name _ ns W T).
  assert (source fs bytes_ p name user = (let* q := existing_file cwd ns !!"path" fs in Ok (OZipSource bytes_ q)) /\
          linear fs bytes_ p name user = let* q := existing_file cwd ns !!"path" fs in Ok (OZipSource bytes_ q)) as [-> ->].
  { unfold source_from_params, linear_source_from_params. destruct bytes_; [by_class fs p name !!"zip" ns user !!"_ZipBytesFileKeyValuesSource" (ZipSourceClass true) W T S1; by_class fs p name !!"zip" ns user !!"_ZipBytesFileKeyValuesSource" (ZipSourceClass true) W T S1
      |by_class fs p name !!"zip" ns user !!"_ZipCharFileKeyValuesSource" (ZipSourceClass false) W T S1; by_class fs p name !!"zip" ns user !!"_ZipCharFileKeyValuesSource" (ZipSourceClass false) W T S1];
    cbn [class_from_parameters]; destruct (existing_file cwd ns !!"path" fs); split; reflexivity. }
  destruct (C80_existing cwd ns !!"path" fs Wn C) as (E1 & E2 & _ & _ & E3). split; [reflexivity|]. split; [|split].
  - intros q b H L. now rewrite (E1 q b H L).
  - intros q H L. now rewrite (E2 q H L).
  - intros e H. now rewrite (proj1 (E3 e H)).
Qed.
(** C83: what a configuration lets one step write, the same configuration lets a later step read. *)
Theorem C83_zip_agree : forall fs fs' bytes_ p name ns user q b, wf_params p -> Forall proper cwd ->
  Typed p name !!"zip" ns -> silent user (sink_class_name true bytes_) -> silent user (source_class_name true bytes_) ->
  sink fs bytes_ p name user = Ok (OZipSink bytes_ q fs') -> forall fs2, look fs2 q = Some (KFile b) -> source fs2 bytes_ p name user = Ok (OZipSource bytes_ q).
Proof.
  intros fs fs' bytes_ p name ns user q b W C T S1 S2 E fs2 L. destruct (C83_zip_source fs2 bytes_ p name ns user W C T S2) as (_ & Z & _). apply (Z q b); [|assumption].
  rewrite (zip_sink_eq fs bytes_ p name ns user W T S1) in E. unfold creatable_file in E. destruct (path_param cwd ns !!"path") as [q'|e] eqn:P; [|discriminate].
  assert (q = q') as ->; [|now apply (path_param_spec cwd ns !!"path" (wf_ns p name _ ns W T) C)].
  destruct (mkdir_p fs (tl q')) as [fs1 [u|e]]; cbn [bind] in E; [|discriminate]. now injection E as -> ->.
Qed.
(** C83: "type: file-map" makes a sink writing into the existing directory named by "path". *)
Theorem C83_directory_sink : forall fs bytes_ p name ns user, wf_params p -> Forall proper cwd ->
  Typed p name !!"file-map" ns -> silent user (sink_class_name false bytes_) ->
  (forall q, names_path cwd ns !!"path" q -> look fs q = Some KDir -> sink fs bytes_ p name user = Ok (ODirSink bytes_ q)) /\
  (forall q, names_path cwd ns !!"path" q -> look fs q <> Some KDir -> sink fs bytes_ p name user = Raise ParameterError) /\
  (forall e, names_none ns !!"path" e -> sink fs bytes_ p name user = Raise e).
Proof.
  intros fs bytes_ p name ns user W C T S1. assert (Wn := wf_ns p name _ ns W T).
  assert (sink fs bytes_ p name user = let* q := existing_directory cwd ns !!"path" fs in Ok (ODirSink bytes_ q)) as ->.
  { unfold sink_from_params. destruct bytes_; [by_class fs p name !!"file-map" ns user !!"_DirectoryBytesKeyValueSink" (DirSinkClass true) W T S1|by_class fs p name !!"file-map" ns user !!"_DirectoryCharKeyValueSink" (DirSinkClass false) W T S1];
    cbn [class_from_parameters]; destruct (existing_directory cwd ns !!"path" fs); reflexivity. }
  destruct (C80_existing cwd ns !!"path" fs Wn C) as (_ & _ & E1 & E2 & E3). split; [|split].
  - intros q H L. now rewrite (E1 q H L).
  - intros q H L. now rewrite (E2 q H L).
  - intros e H. now rewrite (proj2 (E3 e H)).
Qed.
(** Documented: "type: file-map" is a shortcut for a docID to file map.  Refuted for the sources: it always gives a source
    without any keys, whatever "path" is and whether it exists. *)
Theorem C83_file_map_source_refuted : forall fs bytes_ p name ns user, wf_params p -> Typed p name !!"file-map" ns -> silent user (source_class_name false bytes_) ->
  source fs bytes_ p name user = Ok (OMapSource bytes_ []) /\ linear fs bytes_ p name user = Ok (OMapSource bytes_ []).
Proof.
  intros fs bytes_ p name ns user W T S1. unfold source_from_params, linear_source_from_params.
  destruct bytes_; [do 2 by_class fs p name !!"file-map" ns user !!"_PathMappingBytesKeyValueSource" (MapSourceClass true) W T S1|do 2 by_class fs p name !!"file-map" ns user !!"_PathMappingCharKeyValueSource" (MapSourceClass false) W T S1];
  split; reflexivity.
Qed.
(** C83: the map of documents can be had by naming the function instead: exactly the entries of the map file. *)
Theorem C83_map_source : forall fs bytes_ p name ns user f, wf_params p -> Forall proper cwd -> f = (if bytes_ : bool then !!"_doc_id_binary_source_from_params" else !!"_doc_id_source_from_params") ->
  Typed p name f ns -> silent user f ->
  linear fs bytes_ p name user = source fs bytes_ p name user /\
  (forall q b t t' ls kvs, names_path cwd ns !!"path" q -> look fs q = Some (KFile b) -> decode b = Ok t -> newlines_read t t' -> lines_of t' ls -> Forall2 fields ls kvs ->
     exists d, source fs bytes_ p name user = Ok (OMapSource bytes_ d) /\ NoDup (keys d) /\ distinct_in_order (map fst kvs) (keys d) /\
       forall k path, dfind d k = Some path <-> exists s, last_for kvs k s /\ placed None s path) /\
  (forall q b t t' ls l, names_path cwd ns !!"path" q -> look fs q = Some (KFile b) -> decode b = Ok t -> newlines_read t t' -> lines_of t' ls -> In l ls -> ~ one_tab l ->
     source fs bytes_ p name user = Raise IOError) /\
  (forall q, names_path cwd ns !!"path" q -> (forall b, look fs q <> Some (KFile b)) -> source fs bytes_ p name user = Raise ParameterError) /\
  (forall e, names_none ns !!"path" e -> source fs bytes_ p name user = Raise e).
Proof.
  intros fs bytes_ p name ns user f W C Ef T S1. assert (Wn := wf_ns p name _ ns W T).
  assert (R : forall ty df, (forall d, ty (OMapSource bytes_ d) = true) -> store fs p name ty (source_shortcuts X bytes_) df user = let* d := path_map_from_file cwd ns !!"path" None fs in Ok (OMapSource bytes_ d)).
  { intros ty df Ty. rewrite (typed_result fs p name f ns ty _ df user W T). assert (dfind (source_shortcuts X bytes_) f = None) as -> by (subst f; destruct bytes_; reflexivity).
    rewrite (eval_name f _ (OMapFunction bytes_)); [|subst f; destruct bytes_; reflexivity|apply context_silent; [assumption|subst f; destruct bytes_; reflexivity]].
    cbn [wrap_param bind]. unfold ParamsEval.apply_factory. cbn [is_class callable call]. unfold map_source_from_params, path_map_from_file.
    destruct (existing_file cwd ns !!"path" fs) as [q|e]; cbn [bind]; [|reflexivity]. destruct (read_text fs q) as [t|e]; cbn [bind]; [|reflexivity].
    rewrite map_fold. destruct (mapM parse_map_line (text_lines t)) as [kvs|e]; cbn [bind]; [|reflexivity]. rewrite Ty. do 2 f_equal.
    generalize (@nil (str * ppath)). induction kvs as [|kv kvs IH]; intros d; simpl; auto. }
  unfold linear_source_from_params, source_from_params. rewrite !R by reflexivity. destruct (C81_path_map cwd ns !!"path" None fs Wn C) as (P1 & P2 & P3 & P4). split; [reflexivity|]. split; [|split; [|split]].
  - intros q b t t' ls kvs H L D NR LO FF. destruct (P1 q b t t' ls H L D NR LO) as [P _]. destruct (P kvs FF) as (d & -> & Q). exists d. split; [reflexivity|exact Q].
  - intros q b t t' ls l H L D NR LO I N. destruct (P1 q b t t' ls H L D NR LO) as [_ P]. now rewrite (P l I N).
  - intros q H L. now rewrite (P3 q H L).
  - intros e H. now rewrite (P4 e H).
Qed.
(** C83: a type that is a name bound by the caller's context is the factory, even if key_value.py has such a name, too: a class is
    used by its from_parameters (without one, constructed), a function is called with the namespace; the type of the result is checked. *)
Theorem C83_user_type : forall fs bytes_ p name ns user t f, wf_params p -> Typed p name t ns -> is_name t = true -> t <> !!"zip" -> binds user t (OUser f) ->
  let made := if x_is_class f then match x_from_parameters f with Some g => g ns | None => x_construct f end
              else if x_callable f then x_call f ns else Raise ParameterError in
  (forall e, made = Raise e -> sink fs bytes_ p name user = Raise e /\ source fs bytes_ p name user = Raise e /\ linear fs bytes_ p name user = Raise e) /\
  (forall x, made = Ok (OUser x) ->
     sink fs bytes_ p name user = (if x_is_sink x then Ok (OUser x) else Raise ParameterError) /\
     source fs bytes_ p name user = (if x_is_source x then Ok (OUser x) else Raise ParameterError) /\
     linear fs bytes_ p name user = (if x_is_linear x then Ok (OUser x) else Raise ParameterError)).
Proof.
  intros fs bytes_ p name ns user t f W T I NZ B made.
  assert (R : forall ty sh df, dfind sh t = None -> store fs p name ty sh df user = let* o := made in if ty o then Ok o else Raise ParameterError).
  { intros ty sh df D. rewrite (typed_result fs p name t ns ty _ df user W T), D. rewrite (eval_name t _ (OUser f) I (context_binds _ _ _ B)). reflexivity. }
  assert (NF : t <> !!"file-map") by (intros ->; discriminate).   assert (SN : forall (a b : str * kv_obj X), fst a = !!"zip" -> fst b = !!"file-map" -> dfind [a; b] t = None).
  { intros [a x] [b y] Ea Eb. simpl in Ea, Eb. subst a b. cbn [dfind]. assert (E1 : str_eqb !!"zip" t = false) by (apply str_eqb_neq; congruence). assert (E2 : str_eqb !!"file-map" t = false) by (apply str_eqb_neq; congruence). simpl in E1, E2. now rewrite E1, E2. }
  unfold sink_from_params, source_from_params, linear_source_from_params. rewrite !R by (destruct bytes_; apply SN; reflexivity).
  split; intros x ->; auto.
Qed.
(** C83: whatever is returned is a store of the right kind. *)
Theorem C83_kind : forall fs bytes_ p name user o, wf_params p ->
  (sink fs bytes_ p name user = Ok o -> is_sink X x_is_sink o = true) /\
  (source fs bytes_ p name user = Ok o -> is_source X x_is_source o = true) /\
  (linear fs bytes_ p name user = Ok o -> is_linear X x_is_linear o = true).
Proof.
  intros fs bytes_ p name user o W.
  assert (R : forall ty sh df, store fs p name ty sh df user = Ok o -> ty o = true).
  { intros ty sh df E. unfold store_from_params, ParamsEval.object_from_parameters in E. cbn beta iota zeta in E.
    repeat match type of E with
    | (if ?c then Ok ?x else Raise _) = Ok _ => destruct c eqn:?; [injection E as <-; assumption|discriminate]
    | (if ?c then _ else _) = _ => destruct c
    | match ?c with _ => _ end = _ => destruct c; try discriminate E
    | bind ?c _ = _ => destruct c; cbn [bind] in E; [|discriminate E]
    end; try discriminate E. }
  split; [|split]; apply R.
Qed.
(** Documented: without a type, the sources come from a document map and the sinks write to a directory.  Refuted:
    without the namespace, or with a namespace lacking a type, or with just the name of a shortcut, there is always an error (the
    default factories get an empty namespace). *)
Theorem C83_default_refuted : forall fs bytes_ p name user, wf_params p ->
  (Missing p name \/ (exists s, (s = !!"zip" \/ s = !!"file-map") /\ Stored p name (PStr s)) \/
   (exists ns, Stored p name ns /\ is_params ns = true /\ Missing ns !!"type" /\ Missing ns !!"value")) ->
  sink fs bytes_ p name user = Raise ParameterError /\ source fs bytes_ p name user = Raise ParameterError /\ linear fs bytes_ p name user = Raise ParameterError.
Proof.
  intros fs bytes_ p name user W H.
  assert (R : forall ty sh df, (exists x, dfind sh !!"zip" = Some x) -> (exists x, dfind sh !!"file-map" = Some x) ->
    (df = OClass (DirSinkClass bytes_) \/ exists b, df = OMapFunction b) -> store fs p name ty sh df user = Raise ParameterError).
  { intros ty sh df (x & Dx) (y & Dy) Hdf. destruct H as [M|[(s & Hs & Ss)|(ns & Sn & T & M1 & M2)]].
    - unfold store_from_params, ParamsEval.object_from_parameters. rewrite (proj2 (contains_false _ _ (proj1 W)) M). destruct Hdf as [->|(b & ->)]; reflexivity.
    - unfold store_from_params, ParamsEval.object_from_parameters.
      assert (contains p name = true) as ->. { apply contains_spec; [apply W|]. exists (PStr s). split; [assumption|discriminate]. }
      assert (has_namespace p name = false) as ->. { unfold has_namespace. destruct (private_get_spec p name true PNone (proj1 W)) as [G _]. now rewrite (G _ (cand_stored _ _ _ _ Ss)). }
      rewrite (proj2 (string_spec p name (PStr s) (proj1 W))) by auto. cbn [bind str_of]. cbv zeta. change (dfind [] s) with (@None obj). cbn iota.
      assert (exists z, dfind sh s = Some z) as (z & ->) by (destruct Hs as [->| ->]; eauto). destruct Hdf as [->|(b & ->)]; reflexivity.
    - unfold store_from_params. apply C53_underspecified with (ns := ns); auto. }
  unfold sink_from_params, source_from_params, linear_source_from_params.
  repeat split; apply R; try (destruct bytes_; eexists; reflexivity); eauto.
Qed.
(** Documented: for sinks 'directory' is a shortcut.  Refuted: it is an error, unless the name is bound. *)
Theorem C83_directory_shortcut_refuted : forall fs bytes_ p name ns user, wf_params p -> Typed p name !!"directory" ns ->
  silent user !!"directory" -> ~ In !!"directory" (keys other_globals) -> builtin !!"directory" = None ->
  sink fs bytes_ p name user = Raise ParameterError.
Proof.
  intros fs bytes_ p name ns user W T S1 N B. unfold sink_from_params. rewrite (typed_result fs p name _ ns _ _ _ user W T).
  assert (dfind (sink_shortcuts X bytes_) !!"directory" = None) as -> by (destruct bytes_; reflexivity).
  unfold KvParams.py_eval. change (is_name !!"directory") with true. cbn iota. rewrite B.
  assert (dfind (effective_context user) !!"directory" = None) as ->; [|reflexivity].
  unfold KvParams.effective_context. assert (dfind (store_globals X ++ other_globals) !!"directory" = None) as G.
  { assert (forall l : list (str * obj), ~ In !!"directory" (keys l) -> dfind l !!"directory" = None) as K.
    { induction l as [|[k v] l IH]; intros M; cbn [dfind]; [reflexivity|]. destruct (str_eqb k !!"directory") eqn:E; [apply str_eqb_eq in E; destruct M; left; exact E|]. apply IH. intros I. apply M. now right. }
    apply K. unfold keys. rewrite map_app. intros I. apply in_app_or in I. destruct I as [I|I]; [|now apply N]. simpl in I. intuition discriminate. }
  destruct user as [u|]; [rewrite fold_dput_none by now apply S1|]; exact G.
Qed.
End P.

(** ** A concrete case *)
Definition cfg83 : pv := PParams [] [(!!"out", PParams [!!"out"] [(!!"type", PStr !!"zip"); (!!"path", PStr !!"a/b.zip")]);
  (!!"dir", PParams [!!"dir"] [(!!"type", PStr !!"file-map"); (!!"path", PStr !!"/d")]);
  (!!"map", PParams [!!"map"] [(!!"type", PStr !!"_doc_id_source_from_params"); (!!"path", PStr !!"/m")]);
  (!!"mine", PParams [!!"mine"] [(!!"type", PStr !!"Mine")])].
Definition fs83 : list (list str * fnode) := [([!!"d"], KDir); ([!!"m"], KFile (!!"k" ++ [TAB] ++ !!"x/y" ++ [LF]))].
Notation run83 f := (f unit (fun _ => Raise AnyError) (fun _ _ => Raise AnyError) (fun _ => None) (fun _ _ => []) (fun _ => true) (fun _ => None) (fun _ => Ok (OUser tt)) (fun _ => false) (fun _ _ => Raise TypeError)).
Example C83_hypotheses : wf_params cfg83 /\ Forall proper [!!"home"] /\ wf_fs fs83 /\
  Typed cfg83 !!"out" !!"zip" (PParams [!!"out"] [(!!"type", PStr !!"zip"); (!!"path", PStr !!"a/b.zip")]) /\ silent (@None (list (str * kv_obj unit))) !!"x" /\
  binds (Some [(!!"Mine", @OUser unit tt)]) !!"Mine" (OUser tt).
Proof.
  assert (W : wf_params cfg83) by (split; [|reflexivity]; simpl; repeat split; repeat constructor; simpl; unfold dotless; simpl; intuition discriminate).
  split; [assumption|]. split; [repeat constructor; simpl; intuition discriminate|]. split; [|split; [|split]].
  - intros c q k. simpl. destruct q as [|c2 q]; [reflexivity|].
    repeat match goal with |- context [rpath_eqb ?a ?b] => destruct (rpath_eqb_spec a b); [try congruence|] end; congruence.
  - assert (S1 : Stored cfg83 !!"out" (PParams [!!"out"] [(!!"type", PStr !!"zip"); (!!"path", PStr !!"a/b.zip")])) by (apply (stored_walk _ _ _ (proj1 W)); reflexivity).
    assert (W1 := stored_wf _ _ _ (proj1 W) S1). split; [assumption|]. split; [reflexivity|]. split; [apply (stored_walk _ _ _ W1); reflexivity|].
    split; apply (contains_false _ _ W1); reflexivity.
  - intros u E. discriminate.
  - eexists. split; [reflexivity|]. split; [now left|]. repeat constructor. simpl. tauto.
Qed.
Example C83_witness :
  run83 sink_from_params (fun _ => true) [] fs83 [] false cfg83 !!"out" None = Ok (OZipSink false [!!"b.zip"; !!"a"] (([!!"a"], KDir) :: fs83)) /\
  run83 sink_from_params (fun _ => true) [] fs83 [] true cfg83 !!"dir" None = Ok (ODirSink true [!!"d"]) /\
  run83 source_from_params (fun _ => true) [] (([!!"b.zip"; !!"a"], KFile []) :: ([!!"a"], KDir) :: fs83) [] false cfg83 !!"out" None = Ok (OZipSource false [!!"b.zip"; !!"a"]) /\
  run83 source_from_params (fun _ => true) [] fs83 [] false cfg83 !!"map" None = Ok (OMapSource false [(!!"k", MkPath 0 [!!"x"; !!"y"])]) /\
  run83 source_from_params (fun _ => true) [] fs83 [] false cfg83 !!"dir" None = Ok (OMapSource false []) /\
  run83 sink_from_params (fun _ => true) [] fs83 [] false cfg83 !!"mine" (Some [(!!"Mine", OUser tt)]) = Ok (OUser tt) /\
  run83 sink_from_params (fun _ => false) [] fs83 [] false cfg83 !!"mine" (Some [(!!"Mine", OUser tt)]) = Raise ParameterError /\
  run83 sink_from_params (fun _ => true) [] fs83 [] false cfg83 !!"absent" None = Raise ParameterError.
Proof. repeat split; vm_compute; reflexivity. Qed.
Print Assumptions C83_zip_sink.
Print Assumptions C83_zip_source.
Print Assumptions C83_zip_agree.
Print Assumptions C83_directory_sink.
Print Assumptions C83_file_map_source_refuted.
Print Assumptions C83_map_source.
Print Assumptions C83_user_type.
Print Assumptions C83_kind.
Print Assumptions C83_default_refuted.
Print Assumptions C83_directory_shortcut_refuted.
