(** * Model of the file sinks and sources of io_utils.py on a file system
    (io_utils.py:91-164 and 338-359 factories of sources, 273-310 and 422-455 factories of sinks, 586-621)

    Io.v models these classes over a table of files with an oracle for failing writes.  Here the file system is that of Fs.v, paths are followed
    part by part (OsPath.v), sinks make directories when they are constructed, and a sink is used in "with sink.open() as out:" blocks with any number
    of writes.  A Path object is given by a string [s] of which it is Path(s).  Blocks do not overlap: a file being read or written through two handles
    at a time is not modelled, nor are full disks. *)
From Verif Require Import Prelude PyStr TextLib Utf8 Params Fs PathLists SortLib Io KeyValue KvParams OsPath Mains LoadFs DirFs.

(** What is given as a path: a str, or the Path of it *)
Inductive pathlike := AStr (s : str) | APath (s : str).
(** _FileCharSink, _FileByteSink (io_utils.py:586-599), _FileInZipByteSink (602-621), _NullCharSink (458-562) *)
Inductive sink := FileSink (bytes_ : bool) (s : str) | ZipSink (s : str) (entry : str) | NullSink.
(** _FileCharSource / _FileByteSource (io_utils.py:184-192, 362-370), _ByteSourceFromPathInZipFile (373-392) *)
Inductive fsource := FileSource (s : str) | ZipSource (s : str) (entry : str).

Section IoFs.
Notation fsys := (list (list str * fnode)) (only parsing).
Variable cwd : list str.
Variable ZC : zip_codec.

(** p.parent.mkdir(parents=True, exist_ok=True) (io_utils.py:289-290, 443-444); the parent of a path without parts is itself *)
Definition make_parent (fs : fsys) (s : str) : fsys * res unit :=
  let p := parse_path s in mkdir_parents cwd fs (p_root p) (tl (rev (p_parts p))).
(** CharSink.to_file, io_utils.py:280-291 *)
Definition char_to_file (fs : fsys) (a : pathlike) : fsys * res sink :=
  match a with
  | AStr s | APath s => match make_parent fs s with (fs1, Ok _) => (fs1, Ok (FileSink false s)) | (fs1, Raise e) => (fs1, Raise e) end
  end.
(** ByteSink.to_file, io_utils.py:438-445: a str has no attribute "parent" *)
Definition byte_to_file (fs : fsys) (a : pathlike) : fsys * res sink :=
  match a with
  | AStr s => (fs, Raise AttributeError)
  | APath s => match make_parent fs s with (fs1, Ok _) => (fs1, Ok (FileSink true s)) | (fs1, Raise e) => (fs1, Raise e) end
  end.
(** ByteSink.file_in_zip, io_utils.py:422-427, 604: the path must be a Path *)
Definition file_in_zip (a : pathlike) (entry : str) : res sink := match a with AStr _ => Raise TypeError | APath s => Ok (ZipSink s entry) end.
(** CharSource.from_file, io_utils.py:116-123 (pathify, misc_utils.py:84-93) *)
Definition char_from_file (a : pathlike) : res fsource := match a with AStr s | APath s => Ok (FileSource s) end.
(** ByteSource.from_file, io_utils.py:338-343, 364 *)
Definition byte_from_file (a : pathlike) : res fsource := match a with AStr _ => Raise TypeError | APath s => Ok (FileSource s) end.
(** ByteSource.from_file_in_zip with a path, io_utils.py:345-359, 375 *)
Definition byte_from_zip (a : pathlike) (entry : str) : res fsource := match a with AStr _ => Raise TypeError | APath s => Ok (ZipSource s entry) end.

(** Opening for writing (io_utils.py:591, 599, 610) *)
Definition open_write (fs : fsys) (s : str) : res (list str) :=
  let* q := os_find cwd fs (parse_path s) in let* _ := can_write fs q in Ok q.
(** the bytes of a file, and the entries ZipFile(path, "a") finds in it (io_utils.py:610); as Io.zip_entries *)
Definition old_bytes (fs : fsys) (q : list str) : bytes := match look fs q with Some (KFile b) => b | _ => [] end.
(** io_utils.py:610 *)
Definition old_entries (fs : fsys) (q : list str) : archive :=
  match look fs q with Some (KFile b) => match unzip ZC b with Ok a => a | Raise _ => [] end | _ => [] end.
(** "with sink.open() as out: out.write(v1); out.write(v2); ..." (io_utils.py:586-621), the exception of each write being caught by the caller (a caller who
    does not is one who makes no more writes).  Opening a file empties it; what is written before or after a failing write stays.  The entry of a zip file is
    added with what was written; an entry name that cannot be encoded makes open() fail, the file then still being rewritten with its entries. *)
Definition session (fs : fsys) (k : sink) (ws : list value) : fsys * res (list (option exn)) :=
  match k with
  | FileSink b s => match open_write fs s with
                    | Raise e => (fs, Raise e)
                    | Ok q => let cs := map (content b) ws in (set_node fs q (concat (map fst cs)), Ok (map snd cs))
                    end
  | ZipSink s n => match open_write fs s with
                   | Raise e => (fs, Raise e)
                   | Ok q => let cs := map (content true) ws in
                             match zappend (old_entries fs q) n (concat (map fst cs)) with
                             | Ok a => (set_node fs q (dozip ZC (old_bytes fs q) a), Ok (map snd cs))
                             | Raise e => (set_node fs q (dozip ZC (old_bytes fs q) (old_entries fs q)), Raise e)
                             end
                   end
  | NullSink => (fs, Ok (map (fun _ => None) ws))
  end.
(** sink.write(v) (io_utils.py:302-310, 447-455) *)
Definition sink_write_one (fs : fsys) (k : sink) (v : value) : fsys * res unit :=
  match session fs k [v] with
  | (fs', Ok [Some e]) => (fs', Raise e)
  | (fs', Ok _) => (fs', Ok tt)
  | (fs', Raise e) => (fs', Raise e)
  end.
(** source.read() of a byte source (io_utils.py:329-336, 366-367, 378-392) *)
Definition source_bytes (fs : fsys) (r : fsource) : res bytes :=
  match r with
  | FileSource s => read_at cwd fs (parse_path s)
  | ZipSource s n => let* c := read_at cwd fs (parse_path s) in let* a := unzip ZC c in opt_or_raise (zread a n) KeyError
  end.
(** source.read_all() of a character source on it (io_utils.py:68-73, 188-189, 200-201), UTF-8 *)
Definition source_text (fs : fsys) (r : fsource) : res str :=
  let* b := source_bytes fs r in let* t := decode b in Ok (universal_newlines t).

(** A history: sinks are constructed and used, in any order (io_utils.py:273-310, 422-455). *)
Inductive io_op := NewCharSink (a : pathlike) | NewByteSink (a : pathlike) | UseSink (k : sink) (ws : list value).
(** one step *)
Definition io_step (fs : fsys) (o : io_op) : fsys :=
  match o with
  | NewCharSink a => fst (char_to_file fs a)
  | NewByteSink a => fst (byte_to_file fs a)
  | UseSink k ws => fst (session fs k ws)
  end.
(** the file system after a history *)
Definition io_run (fs : fsys) (h : list io_op) : fsys := fold_left io_step h fs.
End IoFs.
