(** * Model of the scripts' main functions, from parameters and file system to file system
    (scripts/split_key_value_store.py, join_key_value_stores.py, downsample_key_value_store.py, directory_to_key_value_store.py)

    The scripts' inner loops are those of Scripts.v.  Here: which parameters are read and in which order, which files are read and written.  Log messages are
    left out.  When an output file of a script is the file of its input, the input cannot be read any more: see [read_later]. *)
From Verif Require Import Prelude PyStr SortLib TextLib Utf8 Order Range Params ParamsEval Fs PathLists Decimals Io KeyValue KvParams OsPath Scripts.

Section Mains.
Notation fsys := (list (list str * fnode)) (only parsing).
Notation rpath := (list str) (only parsing).
(** as in KvParams.v: the rest of Python, and the user's classes *)
Variable X : Type.
Notation obj := (kv_obj X).
Variable import_module : str -> res obj.
Variable other_eval : str -> list (str * obj) -> res obj.
Variable builtin : str -> option obj.
Variable locals_of : pv -> str -> list (str * obj).
Variable x_is_class : X -> bool.
Variable x_from_parameters : X -> option (pv -> res obj).
Variable x_construct : X -> res obj.
Variable x_callable : X -> bool.
Variable x_call : X -> pv -> res obj.
Variables x_is_linear x_is_source x_is_sink : X -> bool.
Variable cwd : list str.
Variable other_globals : list (str * obj).
(** the zip format; what a zip file being written looks like to a reader *)
Variable ZC : zip_codec.
Variable torn : bytes.
(** the order in which a set of keys is listed *)
Variable set_order : list str -> list str.
(** random.seed(s); random.shuffle(l) / random.shuffle(l, random=random.Random(s).random) *)
Variables seeded_shuffle random_shuffle : Z -> list str -> list str.
(** the order in which rglob finds files *)
Variable rglob_order : list (rpath * bytes) -> list (rpath * bytes).
(** stores of the user's classes, and of classes of key_value.py for other values than bytes *)
Variable other_source : obj -> fsys -> res (source bytes).
Variable other_sink : obj -> fsys -> (fsys -> stream value) -> fsys * option exn.

(** ** Files *)
(** open(q, "w") / open(q, "wb") / ZipFile(q, "w") (io_utils.py:587-599, key_value.py:491-502): the directory must exist, and no other object than a regular file be there *)
Definition can_write (fs : fsys) (q : rpath) : res unit :=
  match q with
  | [] => Raise IOError
  | _ :: d => let* _ := search fs d in
              match look fs q with None | Some (KFile _) => Ok tt | Some _ => Raise IOError end
  end.
(** the file system after a file was written (io_utils.py:587-599) *)
Definition set_node (fs : fsys) (q : rpath) (b : bytes) : fsys := (q, KFile b) :: fs.
(** CharSink.to_file(q).write(t), io_utils.py:587-591: the file is there, but empty, when [t] cannot be encoded *)
Definition write_text (fs : fsys) (q : rpath) (t : str) : fsys * option exn :=
  match can_write fs q with
  | Raise e => (fs, Some e)
  | Ok _ => match encode t with Ok b => (set_node fs q b, None) | Raise e => (set_node fs q [], Some e) end
  end.
(** A file as the zip module sees it (key_value.py:491-502, 624-632) *)
Definition disk_at (fs : fsys) (q : rpath) : disk :=
  match look fs q with
  | None => Absent
  | Some (KFile b) => match unzip ZC b with Ok a => Zip a | Raise _ => Partial end
  | Some _ => Partial
  end.
(** ... and after a zip sink has worked on it (key_value.py:491-508) *)
Definition put_disk (fs : fsys) (q : rpath) (d : disk) : fsys :=
  match d with
  | Absent => fs
  | Partial => set_node fs q torn
  | Zip a => set_node fs q (dozip ZC [] a)
  end.
(** ZipFile(p, "r") for a Path that is not resolved (key_value.py:624-632, join_key_value_stores.py:27-28).  A path that cannot be followed counts as that of no file (the
    exception is always a FileNotFoundError here; in fact it can be a NotADirectoryError or, for a NUL, a ValueError) *)
Definition disk_of (fs : fsys) (p : ppath) : disk := match os_find cwd fs p with Ok q => disk_at fs q | Raise _ => Absent end.

(** ** Sources and sinks *)
(** "with source:" for a source given by parameters: zip files 581-640, maps of files 541-578 *)
Definition open_source (fs : fsys) (o : obj) : res (source bytes) :=
  match o with
  | OZipSource true q => let* z := source_enter (disk_at fs q) in Ok (zip_source same_name bytes_value z)
  | OMapSource true files =>
      Ok {| src_keys := Ok (Some (map fst files));
            src_item k := match dfind files k with Some p => read_at cwd fs p | None => Raise KeyError end;
            src_get k := match dfind files k with Some p => let* b := read_at cwd fs p in Ok (Some b) | None => Ok None end |}
  | _ => other_source o fs
  end.
(** The source of a zip file that has since been opened for writing by the script itself (key_value.py:596-620, ZipFile.read): the keys, and the names of the entries, were
    read when it was opened, but the file behind it is now empty (or another store, or _slices.txt), so that reading the data of any entry fails (BadZipFile: there
    is no header of that entry at its place).  Simplification: a text or a store that happens to have the right header at that very place is not considered. *)
Definition lost (src : source bytes) : source bytes :=
  {| src_keys := src_keys src;
     src_item k := match src_item src k with Ok _ => Raise AnyError | Raise e => Raise e end;
     src_get k := match src_get src k with Ok (Some _) => Raise AnyError | Ok None => Ok None | Raise e => Raise e end |}.
(** The source [src] opened for [o] as it is when the files are [fs2] and those in [written] have been written since (maps of files, key_value.py:541-578, read each file when
    its key is looked up).  User-defined sources are taken as they were when they were opened. *)
Definition read_later (o : obj) (src : source bytes) (fs2 : fsys) (written : list rpath) : source bytes :=
  match o with
  | OZipSource true q => if existsb (rpath_eqb q) written then lost src else src
  | OMapSource true _ => match open_source fs2 o with Ok s => s | Raise _ => src end
  | _ => src
  end.
(** "with zip_bytes_sink(q) as out: for ...: out.put(...)" (key_value.py:454-535); [st]: what is put, which may depend on the files as they are once
    the sink has been opened *)
Definition write_zip (fs : fsys) (q : rpath) (st : fsys -> stream value) : fsys * option exn :=
  match can_write fs q with
  | Raise e => (fs, Some e)
  | Ok _ => let '(d, e) := write_stream set_order (disk_at fs q) (st (put_disk fs q Partial)) in (put_disk fs q d, e)
  end.
(** ... for a sink given by parameters *)
Definition write_sink (fs : fsys) (o : obj) (st : fsys -> stream value) : fsys * option exn :=
  match o with
  | OZipSink _ q fs' => write_zip fs' q st
  | _ => other_sink o fs st
  end.
(** byte_key_value_linear_source_from_params etc. (key_value.py:898-938, 980-1016, 1067-1101) with their default namespaces and, for sinks, locals() *)
Definition the_linear_source (fs : fsys) (p : pv) : res obj :=
  linear_source_from_params X import_module other_eval builtin locals_of x_is_class x_from_parameters x_construct x_callable x_call x_is_linear cwd fs other_globals true p !!"input" None.
(** key_value.py:980-1016 *)
Definition the_source (fs : fsys) (p : pv) : res obj :=
  source_from_params X import_module other_eval builtin locals_of x_is_class x_from_parameters x_construct x_callable x_call x_is_source cwd fs other_globals true p !!"input" None.
(** key_value.py:1067-1101 *)
Definition the_sink (fs : fsys) (p : pv) (locals : list (str * obj)) : res obj :=
  sink_from_params X import_module other_eval builtin locals_of x_is_class x_from_parameters x_construct x_callable x_call x_is_sink cwd fs other_globals true p !!"output" (Some locals).

(** ** split_key_value_store.py *)
(** 79-81: sorted; shuffled if there is a seed (it is positive, so it counts as true) *)
Definition slice_order (seed : pv) (keys : list str) : list str :=
  let l := sorted_by str_ltb (fun k => k) keys in
  if is_int seed then seeded_shuffle (int_of seed) l else l.
(** 74-77: entering the sinks one after the other; the number of those entered before the first that fails, and its error *)
Fixpoint first_failure (fs : fsys) (dir : rpath) (i n : nat) : option (nat * exn) :=
  match n with
  | O => None
  | S n' => match can_write fs (slice_file dir i) with Raise e => Some (i, e) | Ok _ => first_failure fs dir (S i) n' end
  end.
(** the slices' files after the sinks were closed (74-84) *)
Definition put_slices (fs : fsys) (dir : rpath) (n : nat) (ds : nat -> disk) : fsys :=
  fold_left (fun f i => put_disk f (slice_file dir i) (ds i)) (seq 0 n) fs.
(** 64-84 *)
Definition split_slices (later : fsys -> list rpath -> source bytes) (p : pv) (fs : fsys) : fsys * option exn :=
  let (fs1, r) := creatable_directory cwd p !!"output_dir" fs in
  match r with
  | Raise e => (fs1, Some e)
  | Ok dir =>
      match positive_integer p !!"num_slices" PNone with
      | Raise e => (fs1, Some e)
      | Ok nv =>
          match optional_positive_integer p !!"random_seed" PNone with
          | Raise e => (fs1, Some e)
          | Ok seed =>
              let n := Z.to_nat (int_of nv) in
              match write_text fs1 (!!"_slices.txt" :: dir) (slices_text dir n) with
              | (fs2, Some e) => (fs2, Some e)
              | (fs2, None) =>
                  match first_failure fs2 dir 0 n with
                  | Some (m, e) => (put_slices fs2 dir m (fun i => fst (write_stream set_order (disk_at fs2 (slice_file dir i)) ([], None))), Some e)
                  | None => let src := later (put_slices fs2 dir n (fun _ => Partial)) ((!!"_slices.txt" :: dir) :: map (slice_file dir) (seq 0 n)) in
                            let (ds, e) := split_even set_order (slice_order seed) n src (fun i => disk_at fs2 (slice_file dir i)) in
                            (put_slices fs2 dir n ds, e)
                  end
              end
          end
      end
  end.
(** 94-115: the splits one after the other; the files written and the keys copied so far *)
Fixpoint split_namespaces (later : fsys -> list rpath -> source bytes) (fs : fsys) (splits : list pv) (written : list rpath) (copied : list str) : fsys * list str * option exn :=
  match splits with
  | [] => (fs, copied, None)
  | s :: rest =>
      match (let* f := existing_file cwd s !!"keys_file" fs in let* t := read_text fs f in Ok (dedup (filter (fun l => negb (is_nil l)) (py_split LF t)))) with
      | Raise e => (fs, copied, Some e)
      | Ok ks =>
          let (fs1, r) := creatable_file cwd s !!"output_file" fs in
          match r with
          | Raise e => (fs1, copied, Some e)
          | Ok q => let st := explicit_keys (later (put_disk fs1 q Partial) (q :: written)) ks in
                    match write_zip fs1 q (fun _ => st) with
                    | (fs2, Some e) => (fs2, copied, Some e)
                    | (fs2, None) => split_namespaces later fs2 rest (q :: written) (copied ++ map fst (fst st))
                    end
          end
      end
  end.
(** == of floats and of objects we know nothing about, see Params.v *)
Variable oeq : pv -> pv -> bool.
(** 87-126 *)
Definition split_explicit (later : fsys -> list rpath -> source bytes) (p : pv) (fs : fsys) : fsys * option exn :=
  match (let* ns := namespace p !!"explicit_split" in sub_namespaces oeq ns) with
  | Raise e => (fs, Some e)
  | Ok splits =>
      match split_namespaces later fs splits [] [] with
      | (fs1, _, Some e) => (fs1, Some e)
      | (fs1, copied, None) =>
          (fs1, match boolean p !!"must_be_exhaustive" (PBool true) with
                | Raise e => Some e
                | Ok (PBool true) => match src_keys (later fs []) with
                                     | Raise e => Some e
                                     | Ok None => Some TypeError
                                     | Ok (Some keys) => if forallb (fun k => existsb (str_eqb k) copied) keys then None else Some RuntimeError
                                     end
                | Ok _ => None
                end)
      end
  end.
(** 52-61 *)
Definition split_main (p : pv) (fs : fsys) : fsys * option exn :=
  match assert_exactly_one_present p [!!"num_slices"; !!"explicit_split"] with
  | Raise e => (fs, Some e)
  | Ok _ =>
      match (let* o := the_linear_source fs p in let* src := open_source fs o in Ok (read_later o src)) with
      | Raise e => (fs, Some e)
      | Ok later => if Params.contains p !!"num_slices" then split_slices later p fs
                  else if Params.contains p !!"explicit_split" then split_explicit later p fs
                  else (fs, Some RuntimeError)
      end
  end.

(** ** join_key_value_stores.py:22-35; locals() are params, input_paths, keys_written *)
Definition join_locals : list str := [!!"params"; !!"input_paths"; !!"keys_written"].
(** 22-35.  The inputs are opened one after the other after the output: an input that is the output file is then no zip file any more. *)
Definition join_main (p : pv) (fs : fsys) : fsys * option exn :=
  match path_list_from_file cwd p !!"input_store_list_file" None fs with
  | Raise e => (fs, Some e)
  | Ok paths =>
      match the_sink fs p (map (fun n => (n, ONone)) join_locals) with
      | Raise e => (fs, Some e)
      | Ok o => write_sink fs o (fun fs2 => join_inputs [] (map (disk_of fs2) paths))
      end
  end.

(** ** downsample_key_value_store.py:33-46 *)
Definition downsample_main (p : pv) (fs : fsys) : fsys * option exn :=
  match (let* o := the_source fs p in let* src := open_source fs o in Ok (read_later o src)) with
  | Raise e => (fs, Some e)
  | Ok later =>
      match src_keys (later fs []) with
      | Raise e => (fs, Some e)
      | Ok None => (fs, Some TypeError)
      | Ok (Some keys) =>
          match positive_integer p !!"num_to_sample" PNone with
          | Raise e => (fs, Some e)
          | Ok nv =>
              match integer p !!"random_seed" (PInt 0) (MkRange BelowAll AboveAll) with
              | Raise e => (fs, Some e)
              | Ok seed =>
                  let (fs1, r) := creatable_file cwd p !!"output_zip_path" fs in
                  match r with
                  | Raise e => (fs1, Some e)
                  | Ok q => match can_write fs1 q with
                            | Raise e => (fs1, Some e)
                            | Ok _ => let (d, e) := downsample set_order (random_shuffle (int_of seed)) (Z.to_nat (int_of nv)) (later (put_disk fs1 q Partial) [q]) (disk_at fs1 q) in
                                      (put_disk fs1 q d, e)
                            end
                  end
              end
          end
      end
  end.

(** ** directory_to_key_value_store.py:32-57 *)
(** rglob("*") and is_file (directory_to_key_value_store.py:37-38): the regular files below a directory, at any depth *)
Definition files_under (fs : fsys) (d : rpath) : list (rpath * bytes) :=
  flat_map (fun q => match look fs q with Some (KFile b) => [(q, b)] | _ => [] end)
    (filter (fun q => at_or_below d q && negb (rpath_eqb q d)) (nodup (list_eq_dec (list_eq_dec N.eq_dec)) (map fst fs))).
(** key_function_from_params (directory_to_key_value_store.py:43-53); true: strip_one_extension *)
Definition key_function (p : pv) : res bool :=
  let* v := optional_string p !!"key_function" (Some [!!"identity"; !!"strip_one_extension"]) PNone in
  match v with
  | PStr s => if str_eqb s !!"strip_one_extension" then Ok true
              else if is_nil s then Ok false else if str_eqb s !!"identity" then Ok false else Raise NotImplementedError
  | _ => Ok false
  end.
(** locals(): params, input_directory, key_function (directory_to_key_value_store.py:36) *)
Definition directory_locals : list str := [!!"params"; !!"input_directory"; !!"key_function"].
(** directory_to_key_value_store.py:32-40.  The output is opened before the input directory is listed. *)
Definition directory_main (p : pv) (fs : fsys) : fsys * option exn :=
  match existing_directory cwd p !!"input_directory" fs with
  | Raise e => (fs, Some e)
  | Ok d =>
      match key_function p with
      | Raise e => (fs, Some e)
      | Ok strip =>
          match the_sink fs p (map (fun n => (n, ONone)) directory_locals) with
          | Raise e => (fs, Some e)
          | Ok o => write_sink fs o (fun fs2 => (map (fun f => (let name := hd [] (fst f) in if strip then stem name else name, VBytes (snd f))) (rglob_order (files_under fs2 d)), None))
          end
      end
  end.
End Mains.
