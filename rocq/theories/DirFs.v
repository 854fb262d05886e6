(** * Model of directory key-value stores on a file system
    (key_value.py:400-451 sinks, 541-578 sources; io_utils.py:281-310, 439-458, 586-599, 658-669)

    The file system is that of Fs.v.  KeyValue.v models the same sinks over a table of files in which every write goes through; here
    directories are made, paths can be blocked by files, and keys can be any strings, also ones with "/", ".." or an absolute path.
    Paths are followed by the operating system part by part ([OsPath.os_walk]).  Keys are str objects.  Not modelled: what Fs.v leaves out, and
    that removing and making anew the process's current directory (__enter__) makes relative paths unusable. *)
From Verif Require Import Prelude PyStr TextLib Utf8 Params Fs PathLists SortLib Io KeyValue KvParams OsPath Mains LoadFs.

Section DirFs.
Notation fsys := (list (list str * fnode)) (only parsing).
Notation rpath := (list str) (only parsing).
Variable cwd : list str.

(** os.mkdir (io_utils.py:291, 444) *)
Definition mkdir_at (fs : fsys) (p : ppath) : res fsys :=
  let* q := os_find cwd fs p in
  match look fs q with Some _ => Raise FileExistsError | None => Ok ((q, KDir) :: fs) end.
(** Path.is_dir *)
Definition dir_at (fs : fsys) (p : ppath) : bool := match os_find cwd fs p with Ok q => is_dir fs q | Raise _ => false end.
(** Path.mkdir(parents=True, exist_ok=True) (io_utils.py:291, 444; key_value.py:412, 439); the parts are given last first *)
Fixpoint mkdir_parents (fs : fsys) (root : N) (rparts : list str) : fsys * res unit :=
  match mkdir_at fs (MkPath root (rev rparts)) with
  | Ok fs' => (fs', Ok tt)
  | Raise FileNotFoundError =>
      match rparts with
      | [] => (fs, Raise FileNotFoundError)
      | _ :: r =>
          match mkdir_parents fs root r with
          | (fs1, Raise e) => (fs1, Raise e)
          | (fs1, Ok _) =>
              match mkdir_at fs1 (MkPath root (rev rparts)) with
              | Ok fs2 => (fs2, Ok tt)
              | Raise FileNotFoundError => (fs1, Raise FileNotFoundError)
              | Raise e => if dir_at fs1 (MkPath root (rev rparts)) then (fs1, Ok tt) else (fs1, Raise e)
              end
          end
      end
  | Raise e => if dir_at fs (MkPath root (rev rparts)) then (fs, Ok tt) else (fs, Raise e)
  end.
(** CharSink.to_file(p).write(...) and ByteSink.to_file(p).write(...), io_utils.py:281-310, 439-458, 586-599: the directories above are
    made, the file is opened - and emptied -, then comes what could be written and the exception that stopped the writing *)
Definition sink_write (fs : fsys) (p : ppath) (data : bytes * option exn) : fsys * res unit :=
  match mkdir_parents fs (p_root p) (tl (rev (p_parts p))) with
  | (fs1, Raise e) => (fs1, Raise e)
  | (fs1, Ok _) =>
      match (let* q := os_find cwd fs1 p in let* _ := can_write fs1 q in Ok q) with
      | Raise e => (fs1, Raise e)
      | Ok q => (set_node fs1 q (fst data), match snd data with Some e => Raise e | None => Ok tt end)
      end
  end.

(** ** The sinks *)
(** what out.write(value) writes (io_utils.py:303-310, 447-458); objects that are neither str nor bytes count as not writable (bytearray etc. left out) *)
Definition content (bytes_ : bool) (v : value) : bytes * option exn :=
  match bytes_, v with
  | false, VStr s => match encode s with Ok b => (b, None) | Raise e => ([], Some e) end
  | true, VBytes b => (b, None)
  | _, _ => ([], Some TypeError)
  end.
Section Sink.
(** the kind of the sink, and its directory, which is resolved (key_value.py:419-424, 446-451) *)
Variable bytes_ : bool.
Variable d : rpath.
(** self._path / key (key_value.py:406, 433) *)
Definition out_file (key : str) : ppath := join_path (abs_path d) key.
(** put, key_value.py:405-408, 432-435; [m]: id_to_file *)
Definition fs_put (fs : fsys) (m : list (str * ppath)) (key : str) (v : value) : fsys * list (str * ppath) * res unit :=
  match sink_write fs (out_file key) (content bytes_ v) with
  | (fs', Ok _) => (fs', dput m key (out_file key), Ok tt)
  | (fs', Raise e) => (fs', m, Raise e)
  end.
(** a sequence of puts (key_value.py:405-408, 432-435), each exception caught by the caller *)
Fixpoint fs_puts (fs : fsys) (m : list (str * ppath)) (ops : list (str * value)) : fsys * list (str * ppath) * list (res unit) :=
  match ops with
  | [] => (fs, m, [])
  | (k, v) :: r => let '(fs1, m1, o) := fs_put fs m k v in let '(fs2, m2, os) := fs_puts fs1 m1 r in (fs2, m2, o :: os)
  end.
(** os.rmdir (key_value.py:411, 438): the directory must be there, be empty, and not be the root *)
Definition os_rmdir (fs : fsys) : res fsys :=
  match d with
  | [] => Raise IOError
  | _ :: r => let* _ := search fs r in
              match look fs d with
              | None => Raise FileNotFoundError
              | Some KDir => if is_empty_directory fs d then Ok (filter (fun e => negb (rpath_eqb (fst e) d)) fs) else Raise IOError
              | Some _ => Raise NotADirectoryError
              end
  end.
(** __enter__, key_value.py:410-414, 437-441 *)
Definition fs_enter (fs : fsys) : fsys * res unit :=
  match os_rmdir fs with Raise e => (fs, Raise e) | Ok fs1 => mkdir_p fs1 d end.
(** str(path) of an absolute path: "//x" keeps its two slashes (io_utils.py:667) *)
Definition ppath_str (p : ppath) : str := (if (p_root p =? 2)%N then [slash; slash] else [slash]) ++ py_join [slash] (p_parts p).
(** writing line by line (io_utils.py:664-668): what was written before the first line that cannot be encoded stays *)
Fixpoint write_lines (ls : list str) : bytes * option exn :=
  match ls with
  | [] => ([], None)
  | l :: r => match encode l with Raise e => ([], Some e) | Ok b => let (bs, e) := write_lines r in (b ++ bs, e) end
  end.
(** write_doc_id_to_file_map, io_utils.py:658-669: a line per id, in increasing order *)
Definition index_lines (m : list (str * ppath)) : list str :=
  map (fun kv => fst kv ++ [TAB] ++ ppath_str (snd kv) ++ [LF]) (sorted_by str_ltb fst m).
(** __exit__, key_value.py:416-417, 443-444 *)
Definition fs_exit (fs : fsys) (m : list (str * ppath)) : fsys * res unit :=
  sink_write fs (out_file index_name) (write_lines (index_lines m)).
(** one "with" block (key_value.py:400-451), the exceptions of the puts being caught *)
Definition fs_session (fs : fsys) (ops : list (str * value)) : fsys * (res unit * list (res unit) * res unit) :=
  match fs_enter fs with
  | (fs1, Raise e) => (fs1, (Raise e, [], Ok tt))
  | (fs1, Ok _) => let '(fs2, m, os) := fs_puts fs1 [] ops in let (fs3, x) := fs_exit fs2 m in (fs3, (Ok tt, os, x))
  end.
(** the scripts' loop "for ...: out.put(...)" (join_key_value_stores.py:27-35, directory_to_key_value_store.py:36-40), left at the first exception *)
Fixpoint fs_put_until (fs : fsys) (m : list (str * ppath)) (ops : list (str * value)) : fsys * list (str * ppath) * option exn :=
  match ops with
  | [] => (fs, m, None)
  | (k, v) :: r => match fs_put fs m k v with (fs1, m1, Ok _) => fs_put_until fs1 m1 r | (fs1, m1, Raise e) => (fs1, m1, Some e) end
  end.
(** "with sink as out: for ...: out.put(...)" (join_key_value_stores.py:26-35, directory_to_key_value_store.py:36-40); as Mains.write_zip *)
Definition fs_write_stream (fs : fsys) (st : fsys -> stream value) : fsys * option exn :=
  match fs_enter fs with
  | (fs1, Raise e) => (fs1, Some e)
  | (fs1, Ok _) => let '(fs2, m, e2) := fs_put_until fs1 [] (fst (st fs1)) in
                   let (fs3, e3) := fs_exit fs2 m in
                   (fs3, match e3 with Raise x => Some x | Ok _ => match e2 with Some x => Some x | None => snd (st fs1) end end)
  end.
End Sink.

(** ** The sources (key_value.py:541-578) *)
(** _PathMappingBytesKeyValueSource, key_value.py:566-578 *)
Definition byte_map_source (fs : fsys) (files : list (str * ppath)) : source bytes :=
  {| src_keys := Ok (Some (map fst files));
     src_item k := match dfind files k with Some p => read_at cwd fs p | None => Raise KeyError end;
     src_get k := match dfind files k with Some p => let* b := read_at cwd fs p in Ok (Some b) | None => Ok None end |}.
(** _PathMappingCharKeyValueSource, key_value.py:551-563: UTF-8, universal newlines *)
Definition char_map_source (fs : fsys) (files : list (str * ppath)) : source str :=
  let text p := let* b := read_at cwd fs p in let* t := decode b in Ok (universal_newlines t) in
  {| src_keys := Ok (Some (map fst files));
     src_item k := match dfind files k with Some p => text p | None => Raise KeyError end;
     src_get k := match dfind files k with Some p => let* t := text p in Ok (Some t) | None => Ok None end |}.
(** The sinks of key_value.py in the scripts' main functions (Mains.v): the zip sinks are modelled there, the directory sinks here *)
Definition dir_sink {X} (user : kv_obj X -> fsys -> (fsys -> stream value) -> fsys * option exn) (o : kv_obj X) : fsys -> (fsys -> stream value) -> fsys * option exn :=
  match o with ODirSink b d => fs_write_stream b d | _ => user o end.
End DirFs.
