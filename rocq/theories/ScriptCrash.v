(** * The states the scripts can leave behind when their process dies
    (scripts/split_key_value_store.py, join_key_value_stores.py, downsample_key_value_store.py, directory_to_key_value_store.py)

    Mains.v gives the state at the end of each script.  Here are the states on the way: after every directory made, with any beginning of a text file written, and
    with any unfinished zip file from its opening to its closing.  A process that is killed leaves one of these states.  As in DirCrash.v everything the system calls did
    is kept (the machine itself does not crash).  Only zip outputs are considered, not sinks of the user's own classes or directory sinks (for those see DirCrash.v).
    Not every condition under which a step is reached is repeated: there are more states here than can occur, which only makes statements about all of them stronger. *)
From Verif Require Import Prelude PyStr SortLib TextLib Utf8 Order Range Params ParamsEval Fs PathLists Decimals Io KeyValue KvParams OsPath Scripts Mains.

Section ScriptCrash.
Notation fsys := (list (list str * fnode)) (only parsing).
Notation rpath := (list str) (only parsing).
(** as in Mains.v *)
Variable X : Type.
Notation obj := (kv_obj X).
Variable import_module : str -> res obj.
Variable other_eval : str -> list (str * obj) -> res obj.
Variable builtin : str -> option obj.
Variable locals_of : pv -> str -> list (str * obj).
Variable x_is_class : X -> bool.
Variable x_from_parameters : X -> option (pv -> res obj).
Variable x_construct : X -> res obj.
Variable x_callable : X -> bool.
Variable x_call : X -> pv -> res obj.
Variables x_is_linear x_is_source x_is_sink : X -> bool.
Variable cwd : list str.
Variable other_globals : list (str * obj).
Variable ZC : zip_codec.
Variable torn : bytes.
Variable set_order : list str -> list str.
Variables seeded_shuffle random_shuffle : Z -> list str -> list str.
Variable rglob_order : list (rpath * bytes) -> list (rpath * bytes).
Variable other_source : obj -> fsys -> res (source bytes).
Variable other_sink : obj -> fsys -> (fsys -> stream value) -> fsys * option exn.
Variable oeq : pv -> pv -> bool.
(** what can be in a zip file between its opening and its closing (key_value.py:477-508) *)
Variable unfinished : bytes -> Prop.

(** Path.mkdir(parents=True, exist_ok=True) (parameters.py:240-256, 332-344): the states before and after each os.mkdir, as in [mkdir_p] *)
Fixpoint mkdir_moments (fs : fsys) (q : rpath) : list fsys :=
  match os_mkdir fs q with
  | Ok fs' => [fs; fs']
  | Raise FileNotFoundError =>
      match q with
      | [] => [fs]
      | _ :: r =>
          mkdir_moments fs r ++
          match mkdir_p fs r with
          | (fs1, Ok _) => match os_mkdir fs1 q with Ok fs2 => [fs2] | Raise _ => [] end
          | _ => []
          end
      end
  | Raise _ => [fs]
  end.
(** CharSink.to_file(q).write(t) (io_utils.py:587-591): before, or with the file opened (and so emptied) and a beginning of the text in it *)
Definition text_moment (fs : fsys) (q : rpath) (t : str) (st : fsys) : Prop :=
  st = fs \/ (can_write fs q = Ok tt /\ exists written rest, (encode t = Ok (written ++ rest) \/ written = []) /\ st = set_node fs q written).
(** "with zip_bytes_sink(q) as out: ..." (key_value.py:477-508): before, with the file unfinished, and after *)
Definition zip_moment (fs : fsys) (q : rpath) (puts : fsys -> stream value) (st : fsys) : Prop :=
  st = fs \/ (can_write fs q = Ok tt /\ exists b, unfinished b /\ st = set_node fs q b) \/ st = fst (write_zip ZC torn set_order fs q puts).

(** ** split_key_value_store.py, even slices (64-84) *)
(** the first [m] slices with the contents [bs] (74-84) *)
Definition set_slices (fs : fsys) (dir : rpath) (m : nat) (bs : nat -> bytes) : fsys :=
  fold_left (fun f i => set_node f (slice_file dir i) (bs i)) (seq 0 m) fs.
(** the bytes of a zip file that was closed (key_value.py:504-508) *)
Definition closed_bytes (d : disk) (b : bytes) : Prop := exists a, d = Zip a /\ b = dozip ZC [] a.
(** 74-84: [m] of the sinks were opened.  The ExitStack closes them in reverse order: those from [j] on are closed. *)
Definition slices_moment (fs : fsys) (dir : rpath) (m : nat) (ds : nat -> disk) (st : fsys) : Prop :=
  exists j bs, j <= m /\ (forall i, i < j -> unfinished (bs i)) /\ (forall i, j <= i -> i < m -> closed_bytes (ds i) (bs i)) /\ st = set_slices fs dir m bs.
(** 64-84, as in [split_slices] *)
Inductive split_slices_moment (later : fsys -> list rpath -> source bytes) (p : pv) (fs : fsys) (st : fsys) : Prop :=
| slices_dirs dir : path_param cwd p !!"output_dir" = Ok dir -> In st (mkdir_moments fs dir) -> split_slices_moment later p fs st
| slices_list fs1 dir nv seed : creatable_directory cwd p !!"output_dir" fs = (fs1, Ok dir) -> positive_integer p !!"num_slices" PNone = Ok nv ->
    optional_positive_integer p !!"random_seed" PNone = Ok seed ->
    text_moment fs1 (!!"_slices.txt" :: dir) (slices_text dir (Z.to_nat (int_of nv))) st -> split_slices_moment later p fs st
| slices_opening fs1 dir nv seed fs2 m bs : creatable_directory cwd p !!"output_dir" fs = (fs1, Ok dir) -> positive_integer p !!"num_slices" PNone = Ok nv ->
    optional_positive_integer p !!"random_seed" PNone = Ok seed -> write_text fs1 (!!"_slices.txt" :: dir) (slices_text dir (Z.to_nat (int_of nv))) = (fs2, None) ->
    m <= Z.to_nat (int_of nv) -> (forall i, i < m -> can_write fs2 (slice_file dir i) = Ok tt) -> (forall i, i < m -> unfinished (bs i)) -> st = set_slices fs2 dir m bs ->
    split_slices_moment later p fs st
| slices_failed fs1 dir nv seed fs2 m e : creatable_directory cwd p !!"output_dir" fs = (fs1, Ok dir) -> positive_integer p !!"num_slices" PNone = Ok nv ->
    optional_positive_integer p !!"random_seed" PNone = Ok seed -> write_text fs1 (!!"_slices.txt" :: dir) (slices_text dir (Z.to_nat (int_of nv))) = (fs2, None) ->
    first_failure fs2 dir 0 (Z.to_nat (int_of nv)) = Some (m, e) ->
    slices_moment fs2 dir m (fun i => fst (write_stream set_order (disk_at ZC fs2 (slice_file dir i)) ([], None))) st -> split_slices_moment later p fs st
| slices_closing fs1 dir nv seed fs2 : creatable_directory cwd p !!"output_dir" fs = (fs1, Ok dir) -> positive_integer p !!"num_slices" PNone = Ok nv ->
    optional_positive_integer p !!"random_seed" PNone = Ok seed -> write_text fs1 (!!"_slices.txt" :: dir) (slices_text dir (Z.to_nat (int_of nv))) = (fs2, None) ->
    let n := Z.to_nat (int_of nv) in first_failure fs2 dir 0 n = None ->
    let src := later (put_slices ZC torn fs2 dir n (fun _ => Partial)) ((!!"_slices.txt" :: dir) :: map (slice_file dir) (seq 0 n)) in
    slices_moment fs2 dir n (fst (split_even set_order (slice_order seeded_shuffle seed) n src (fun i => disk_at ZC fs2 (slice_file dir i)))) st -> split_slices_moment later p fs st
| slices_end : st = fst (split_slices cwd ZC torn set_order seeded_shuffle later p fs) -> split_slices_moment later p fs st.

(** ** split_key_value_store.py, explicit splits (94-115), as in [split_namespaces] *)
Inductive splits_moment (later : fsys -> list rpath -> source bytes) : fsys -> list pv -> list rpath -> fsys -> Prop :=
| splits_here fs splits written : splits_moment later fs splits written fs
| splits_dirs fs s rest written q st : path_param cwd s !!"output_file" = Ok q -> In st (mkdir_moments fs (tl q)) -> splits_moment later fs (s :: rest) written st
| splits_zip fs s rest written f t fs1 q st : existing_file cwd s !!"keys_file" fs = Ok f -> read_text fs f = Ok t -> creatable_file cwd s !!"output_file" fs = (fs1, Ok q) ->
    zip_moment fs1 q (fun _ => explicit_keys (later (put_disk ZC torn fs1 q Partial) (q :: written)) (dedup (filter (fun l => negb (is_nil l)) (py_split LF t)))) st ->
    splits_moment later fs (s :: rest) written st
| splits_next fs s rest written f t fs1 q fs2 st : existing_file cwd s !!"keys_file" fs = Ok f -> read_text fs f = Ok t -> creatable_file cwd s !!"output_file" fs = (fs1, Ok q) ->
    write_zip ZC torn set_order fs1 q (fun _ => explicit_keys (later (put_disk ZC torn fs1 q Partial) (q :: written)) (dedup (filter (fun l => negb (is_nil l)) (py_split LF t)))) = (fs2, None) ->
    splits_moment later fs2 rest (q :: written) st -> splits_moment later fs (s :: rest) written st.
(** split_key_value_store.py:52-61, as in [split_main] *)
Inductive split_moment (p : pv) (fs : fsys) (st : fsys) : Prop :=
| split_start : st = fs -> split_moment p fs st
| split_even_slices later : assert_exactly_one_present p [!!"num_slices"; !!"explicit_split"] = Ok tt ->
    (let* o := the_linear_source X import_module other_eval builtin locals_of x_is_class x_from_parameters x_construct x_callable x_call x_is_linear cwd other_globals fs p in
     let* src := open_source X cwd ZC other_source fs o in Ok (read_later X cwd ZC other_source o src)) = Ok later ->
    Params.contains p !!"num_slices" = true -> split_slices_moment later p fs st -> split_moment p fs st
| split_explicit_splits later ns splits : assert_exactly_one_present p [!!"num_slices"; !!"explicit_split"] = Ok tt ->
    (let* o := the_linear_source X import_module other_eval builtin locals_of x_is_class x_from_parameters x_construct x_callable x_call x_is_linear cwd other_globals fs p in
     let* src := open_source X cwd ZC other_source fs o in Ok (read_later X cwd ZC other_source o src)) = Ok later ->
    Params.contains p !!"num_slices" = false -> namespace p !!"explicit_split" = Ok ns -> sub_namespaces oeq ns = Ok splits ->
    splits_moment later fs splits [] st -> split_moment p fs st.

(** ** A sink given by parameters (key_value.py:1067-1101): its directories are made when it is constructed *)
Definition sink_moment (fs : fsys) (o : obj) (puts : fsys -> stream value) (st : fsys) : Prop :=
  match o with
  | OZipSink _ q fs' => In st (mkdir_moments fs (tl q)) \/ zip_moment fs' q puts st
  | _ => st = fs
  end.
(** join_key_value_stores.py:22-35, as in [join_main] *)
Inductive join_moment (p : pv) (fs : fsys) (st : fsys) : Prop :=
| join_start : st = fs -> join_moment p fs st
| join_sink paths o : path_list_from_file cwd p !!"input_store_list_file" None fs = Ok paths ->
    the_sink X import_module other_eval builtin locals_of x_is_class x_from_parameters x_construct x_callable x_call x_is_sink cwd other_globals fs p (map (fun n => (n, ONone)) join_locals) = Ok o ->
    sink_moment fs o (fun fs2 => join_inputs [] (map (disk_of cwd ZC fs2) paths)) st -> join_moment p fs st.
(** directory_to_key_value_store.py:32-40, as in [directory_main] *)
Inductive directory_moment (p : pv) (fs : fsys) (st : fsys) : Prop :=
| directory_start : st = fs -> directory_moment p fs st
| directory_sink d strip o : existing_directory cwd p !!"input_directory" fs = Ok d -> key_function p = Ok strip ->
    the_sink X import_module other_eval builtin locals_of x_is_class x_from_parameters x_construct x_callable x_call x_is_sink cwd other_globals fs p (map (fun n => (n, ONone)) directory_locals) = Ok o ->
    sink_moment fs o (fun fs2 => (map (fun f => (let name := hd [] (fst f) in if strip then stem name else name, VBytes (snd f))) (rglob_order (files_under fs2 d)), None)) st ->
    directory_moment p fs st.
(** downsample_key_value_store.py:33-46, as in [downsample_main] *)
Inductive downsample_moment (p : pv) (fs : fsys) (st : fsys) : Prop :=
| downsample_start : st = fs -> downsample_moment p fs st
| downsample_dirs o src q : the_source X import_module other_eval builtin locals_of x_is_class x_from_parameters x_construct x_callable x_call x_is_source cwd other_globals fs p = Ok o ->
    open_source X cwd ZC other_source fs o = Ok src -> path_param cwd p !!"output_zip_path" = Ok q -> In st (mkdir_moments fs (tl q)) -> downsample_moment p fs st
| downsample_zip o src keys nv seed fs1 q b : the_source X import_module other_eval builtin locals_of x_is_class x_from_parameters x_construct x_callable x_call x_is_source cwd other_globals fs p = Ok o ->
    open_source X cwd ZC other_source fs o = Ok src -> src_keys src = Ok (Some keys) -> positive_integer p !!"num_to_sample" PNone = Ok nv ->
    integer p !!"random_seed" (PInt 0) (MkRange BelowAll AboveAll) = Ok seed ->
    creatable_file cwd p !!"output_zip_path" fs = (fs1, Ok q) -> can_write fs1 q = Ok tt -> unfinished b -> st = set_node fs1 q b -> downsample_moment p fs st
| downsample_end : st = fst (downsample_main X import_module other_eval builtin locals_of x_is_class x_from_parameters x_construct x_callable x_call x_is_source cwd other_globals ZC torn set_order random_shuffle other_source p fs) ->
    downsample_moment p fs st.

(** ** Several runs *)
(** any number of runs, each killed at some moment *)
Inductive killed_runs (moment : fsys -> fsys -> Prop) : fsys -> fsys -> Prop :=
| no_run fs : killed_runs moment fs fs
| one_more fs st st' : moment fs st -> killed_runs moment st st' -> killed_runs moment fs st'.
End ScriptCrash.
