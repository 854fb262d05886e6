(** * Model of io_utils.py: character and byte sources and sinks *)
From Verif Require Import Prelude PyStr SortLib TextLib Utf8.

(** Python's bytes *)
Definition bytes := list N.
Notation path := str (only parsing).
(** A zip archive: its entries in the order written.  ZipFile.read / open for reading use the last
    entry of that name; ZipInfo cuts names at a NUL character. *)
Definition archive := list (str * bytes).
(** zipfile.ZipInfo cuts a name at the first NUL (used by io_utils.py:603-621, key_value.py:477-489) *)
Definition zip_name (n : str) : str := (fix cut s := match s with [] => [] | c :: r => if (c =? 0)%N then [] else c :: cut r end) n.
(** ZipFile.read(n): the last entry of that name (io_utils.py:374-402, key_value.py:46-56) *)
Definition zread (a : archive) (n : str) : option bytes :=
  fold_left (fun acc e => if str_eqb (fst e) n then Some (snd e) else acc) a None.
(** Appending an entry: the name must be encodable in UTF-8 (ZipInfo._encodeFilenameFlags). *)
Definition zappend (a : archive) (n : str) (b : bytes) : res archive :=
  let* _ := encode (zip_name n) in Ok (a ++ [(zip_name n, b)]).
(** What can be in an archive: names without NUL that UTF-8 can encode. *)
Definition name_ok (n : str) : Prop := ~ In 0%N n /\ exists b, encode n = Ok b.
(** archives whose names all survive writing *)
Definition zip_ok (a : archive) : Prop := forall n b, In (n, b) a -> name_ok n.
(** The zip format of the standard library (zipfile): not modelled byte by byte, but as a codec.  [dozip old a] is the file
    that results from writing archive [a] over/after the bytes [old] (mode "a" keeps what was there). *)
Record zip_codec := {
  unzip : bytes -> res archive;
  dozip : bytes -> archive -> bytes;
  unzip_dozip : forall old a, zip_ok a -> unzip (dozip old a) = Ok a;
  unzip_ok : forall c a, unzip c = Ok a -> zip_ok a }.
(** A member of a tar archive: name, whether it is a regular file, its data. *)
Record member := { m_name : str; m_isfile : bool; m_data : option bytes }.

Section Io.
(** The file system: contents of the regular files. *)
Definition world := path -> option bytes.
(** writing a file (io_utils.py:587-599) *)
Definition set_file (w : world) (p : path) (b : bytes) : world := fun q => if str_eqb p q then Some b else w q.
(** Whether a file can be created or opened for writing at a path; mkdir of the parents included. *)
Variable write_error : world -> path -> option exn.
(** Formats implemented by the standard library. *)
Variable ZC : zip_codec.
Variable gunzip : bytes -> res bytes.
Variable untar : bytes -> res (list member).

(** reading a file (io_utils.py:188-192, 363-370) *)
Definition read_file (w : world) (p : path) : res bytes := match w p with Some b => Ok b | None => Raise FileNotFoundError end.

(** io_utils.py:361-402: the byte sources *)
Inductive byte_source := BFile (p : path) | BZip (p : path) (name : str) | BOpenZip (a : archive) (name : str).
(** io_utils.py:363-402 *)
Definition byte_content (w : world) (b : byte_source) : res bytes :=
  match b with
  | BFile p => read_file w p
  | BZip p n => let* c := read_file w p in let* a := unzip ZC c in opt_or_raise (zread a n) KeyError
  | BOpenZip a n => opt_or_raise (zread a n) KeyError
  end.
(** io_utils.py:329-336 (ByteSource.read) *)
Definition byte_read (w : world) (b : byte_source) (size : Z) : res bytes :=
  let* c := byte_content w b in Ok (if (size <? 0)%Z then c else firstn (Z.to_nat size) c).

(** [dec] is bytes.decode(encoding) of the chosen encoding. *)
Inductive char_source :=
| CString (s : str) | CFile (p : path) | CBytes (b : byte_source) (dec : bytes -> res str)
| CGzip (p : path) (dec : bytes -> res str) | CTgz (p : path) (name : str) (dec : bytes -> res str).
(** The text of a source: what open() delivers (io_utils.py:167-248).  A decoding error surfaces when the text is read;
    partial reads before it are not modelled.  StringIO does not translate newlines, text files do.
    tarfile.extractfile returns None for a directory or device.
    Archives have no links here; archives with links are in TarLinks.v (C116). *)
Definition text (w : world) (c : char_source) : res str :=
  match c with
  | CString s => Ok s
  | CFile p => let* b := read_file w p in let* s := decode b in Ok (universal_newlines s)
  | CBytes b dec => let* c := byte_content w b in let* s := dec c in Ok (universal_newlines s)
  | CGzip p dec => let* b := read_file w p in let* u := gunzip b in let* s := dec u in Ok (universal_newlines s)
  | CTgz p n dec =>
      let* b := read_file w p in let* u := gunzip b in let* ms := untar u in
      match find (fun m => str_eqb (m_name m) n) (rev ms) with
      | None => Raise KeyError
      | Some m => match m_isfile m, m_data m with
                  | true, Some d => dec d
                  | _, _ => Raise IOError
                  end
      end
  end.
(** io_utils.py:68-73, 75-82 *)
Definition read_all (w : world) (c : char_source) : res str := text w c.
(** io_utils.py:75-82 *)
Definition readlines (w : world) (c : char_source) : res (list str) := let* t := text w c in Ok (map rstrip_lf (text_lines t)).
(** io_utils.py:84-89, 173-174, 191-192, 212-215, 246-248 *)
Definition is_nil {A} (l : list A) : bool := match l with [] => true | _ => false end.
(** io_utils.py:84-89 and the overriding methods *)
Definition is_empty (w : world) (c : char_source) : res bool :=
  match c with
  | CString s => Ok (is_nil s)
  | CFile p => let* b := read_file w p in Ok (is_nil b)
  | CBytes _ _ => let* t := text w c in Ok (is_nil (firstn 1 t))
  | CGzip p _ => let* b := read_file w p in let* u := gunzip b in Ok (is_nil (firstn 1 u))
  | CTgz p n _ =>
      let* b := read_file w p in let* u := gunzip b in let* ms := untar u in
      match find (fun m => str_eqb (m_name m) n) (rev ms) with
      | None => Raise KeyError
      | Some m => Ok (match m_data m with Some d => is_nil d | None => true end)
      end
  end.

(** CharSink.to_file(p).write(s) (io_utils.py:281-310, 587-591): opening truncates the file; encoding errors come after
    that.  On Linux newlines are not translated when writing. *)
Definition char_file_write (w : world) (p : path) (s : str) : world * res unit :=
  match write_error w p with
  | Some e => (w, Raise e)
  | None => match encode s with
            | Ok b => (set_file w p b, Ok tt)
            | Raise e => (set_file w p [], Raise e)
            end
  end.
(** ByteSink.to_file(p).write(b) (io_utils.py:439-455, 595-599) *)
Definition byte_file_write (w : world) (p : path) (b : bytes) : world * res unit :=
  match write_error w p with
  | Some e => (w, Raise e)
  | None => (set_file w p b, Ok tt)
  end.
(** ByteSink.file_in_zip(p, n).write(b) (io_utils.py:603-621): appends to the archive, creating it if needed; ZipFile(p, "a")
    starts a new archive at the end of a file which is not a zip file. *)
Definition zip_entries (w : world) (p : path) : archive :=
  match w p with None => [] | Some c => match unzip ZC c with Ok a => a | Raise _ => [] end end.
(** io_utils.py:603-621 *)
Definition zip_entry_write (w : world) (p : path) (n : str) (b : bytes) : world * res unit :=
  match write_error w p with
  | Some e => (w, Raise e)
  | None => let old := match w p with None => [] | Some c => c end in
            match zappend (zip_entries w p) n b with
            | Ok a => (set_file w p (dozip ZC old a), Ok tt)
            | Raise e => (set_file w p (dozip ZC old (zip_entries w p)), Raise e)
            end
  end.
(** CharSink.to_string() / ByteSink.to_buffer(): with open() as out: several writes; the last session's text is
    kept (io_utils.py:565-583, 624-642).  The state is last_string_written / last_bytes_written. *)
Definition buffer_session {A} (last : option (list A)) (writes : list (list A)) : option (list A) := Some (concat writes).
(** io_utils.py:565-583, 624-642: several sessions, one after the other *)
Definition buffer_history {A} (sessions : list (list (list A))) : option (list A) := fold_left buffer_session sessions None.

(** io_utils.py:645-655 *)
Definition file_lines_to_set (w : world) (p : path) : res (list str) :=
  let* t := text w (CFile p) in Ok (dedup (filter (fun l => negb (is_nil l)) (py_split LF t))).
(** io_utils.py:658-668; the map's values are the absolute paths (str(path.absolute())) *)
Definition write_doc_id_to_file_map (m : list (str * path)) : str :=
  flat_map (fun kv => fst kv ++ [TAB] ++ snd kv ++ [LF]) (sorted_by str_ltb fst m).
(** io_utils.py:671-686; the pairs read, in order (a dict is made of them) *)
Definition parse_map_line (line : str) : res (str * path) :=
  match py_split TAB line with
  | [a; b] => Ok (py_strip a, py_strip b)
  | _ => Raise IOError
  end.
(** io_utils.py:671-686 *)
Definition read_doc_id_to_file_map (w : world) (c : char_source) : res (list (str * path)) :=
  let* t := text w c in mapM parse_map_line (text_lines t).
End Io.
