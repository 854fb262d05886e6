(** * C131: which files sources leave open (io_utils.py:51-90, 167-248, 312-402)

    A model of the objects behind file handles: files, ZipFile objects, handles of members of a zip file, text wrappers, and the replaced
    close methods.  "Open" means open without help of the garbage collector, which may close objects that
    nobody refers to any more. *)
From Verif Require Import Prelude PyStr TextLib Utf8 Io.
Local Open Scope nat_scope.

Section Model.
(** The programs considered only read: the file system [w] does not change. *)
Variable w : world.
Variable ZC : zip_codec.
Variable gunzip : bytes -> res bytes.
Variable untar : bytes -> res (list member).
(** A damaged tar file: whether the damage is found only after opening, when its members are listed
    (tarfile.open reads just the first header). *)
Variable late : bytes -> bool.

(** The objects.  [done]: everything has been read (the position in the file otherwise is not modelled). *)
Inductive obj :=
| OFile (p : path) (op : bool) (data : res bytes) (done : bool) (* an open file, GzipFile or TarFile with its file *)
| OZip (p : path) (a : archive) (op : bool)                     (* a zipfile.ZipFile *)
| OExt (z : nat) (data : bytes) (op : bool) (done : bool)       (* a handle of a member of the ZipFile number z *)
| OMem (s : str) (op : bool) (done : bool).                     (* an io.StringIO *)
Definition heap := list obj.
(** The result of open(); close() closes: *)
Inductive handle :=
| HMem (o : nat)              (* a StringIO (io_utils.py:171-172) *)
| HFile (o : nat)             (* a file *)
| HExt (o : nat)              (* a member handle (io_utils.py:400-402) *)
| HExtZip (o z : nat)         (* a member handle with the replaced close (io_utils.py:378-392) *)
| HMemTar (o t : nat)         (* a StringIO with the replaced close (io_utils.py:223-244) *)
| HText (h : handle) (dec : bytes -> res str). (* an io.TextIOWrapper *)
(** The objects a handle works on. *)
Fixpoint oids (h : handle) : list nat :=
  match h with HMem o | HFile o | HExt o => [o] | HExtZip o z => [o; z] | HMemTar o t => [o; t] | HText h _ => oids h end.

(** Changing one object. *)
Fixpoint upd (i : nat) (f : obj -> obj) (l : heap) : heap :=
  match l, i with [], _ => [] | x :: r, 0 => f x :: r | x :: r, S j => x :: upd j f r end.
(** close() of one object. *)
Definition shut_obj (x : obj) : obj :=
  match x with OFile p _ d r => OFile p false d r | OZip p a _ => OZip p a false | OExt z d _ r => OExt z d false r | OMem s _ r => OMem s false r end.
(** reading all of one object *)
Definition mark (x : obj) : obj :=
  match x with OFile p b d _ => OFile p b d true | OZip p a b => OZip p a b | OExt z d b _ => OExt z d b true | OMem s b _ => OMem s b true end.
(** close() of a handle: io_utils.py:240-242 and 387-389 are the replaced methods; TextIOWrapper.close calls
    close of what it wraps. *)
Fixpoint hclose (h : handle) (m : heap) : heap :=
  match h with
  | HMem o | HFile o | HExt o => upd o shut_obj m
  | HExtZip o z => upd z shut_obj (upd o shut_obj m)
  | HMemTar o t => upd t shut_obj (upd o shut_obj m)
  | HText h _ => hclose h m
  end.

(** The results of programs. *)
Inductive V := VText (s : str) | VBytes (b : bytes) | VLines (l : list str) | VBool (b : bool) | VUnit.
(** read() of a handle: ValueError when it has been closed, nothing the second time.  A member handle does not
    care whether its ZipFile has been closed: zipfile counts the users of the file. *)
Fixpoint hread (h : handle) (m : heap) : heap * res V :=
  match h with
  | HMem o | HMemTar o _ =>
      match nth_error m o with
      | Some (OMem s true r) => (upd o mark m, Ok (VText (if r then [] else s)))
      | _ => (m, Raise ValueError)
      end
  | HFile o | HExt o | HExtZip o _ =>
      match nth_error m o with
      | Some (OFile _ true d r) => (upd o mark m, if r then Ok (VBytes []) else let* b := d in Ok (VBytes b))
      | Some (OExt _ d true r) => (upd o mark m, Ok (VBytes (if r then [] else d)))
      | _ => (m, Raise ValueError)
      end
  | HText h dec =>
      let '(m', r) := hread h m in
      (m', let* b := r in match b with VBytes b => let* s := dec b in Ok (VText (universal_newlines s)) | _ => Raise TypeError end)
  end.

(** The sources.  The ZipFile of [SOpenZip] is the [v]-th one the program has opened itself. *)
Inductive source :=
| SFile (p : path)                                  (* ByteSource.from_file *)
| SZip (p : path) (n : str)                         (* ByteSource.from_file_in_zip(path, n) *)
| SOpenZip (v : nat) (n : str)                      (* ByteSource.from_file_in_zip(zip_file, n) *)
| SString (s : str)                                 (* CharSource.from_string *)
| SText (p : path)                                  (* CharSource.from_file *)
| SDec (b : source) (dec : bytes -> res str)        (* CharSource.from_byte_source *)
| SGzipRaw (p : path)                               (* gzip.open(path), for is_empty (io_utils.py:212-215) *)
| SGzip (p : path) (dec : bytes -> res str)         (* CharSource.from_gzipped_file *)
| STgz (p : path) (n : str) (dec : bytes -> res str). (* CharSource.from_file_in_tgz *)

(** what the tar file at [p] has; [inl] if it cannot be opened, [inr] afterwards *)
Definition tar_members (p : path) : res (res (list member)) :=
  let* b := read_file w p in let* u := gunzip b in
  match untar u with Ok ms => Ok (Ok ms) | Raise e => if late u then Ok (Raise e) else Raise e end.
(** the text of a member (io_utils.py:227-236): extractfile, read, decode *)
Definition member_text (ms : res (list member)) (n : str) (dec : bytes -> res str) : res str :=
  let* ms := ms in
  match find (fun m => str_eqb (m_name m) n) (rev ms) with
  | None => Raise KeyError
  | Some m => match m_isfile m, m_data m with true, Some d => dec d | _, _ => Raise IOError end
  end.

(** open() of a source: io_utils.py:171-172, 188-189, 200-201, 209-210, 223-244, 366-367, 378-392, 400-402 *)
Fixpoint open_source (uz : list nat) (m : heap) (s : source) : heap * res handle :=
  match s with
  | SFile p => match w p with Some b => (m ++ [OFile p true (Ok b) false], Ok (HFile (length m))) | None => (m, Raise FileNotFoundError) end
  | SZip p n =>
      match read_file w p with
      | Raise e => (m, Raise e)
      | Ok c => match unzip ZC c with
                | Raise e => (m, Raise e)
                | Ok a => match zread a n with
                          | None => (m ++ [OZip p a true], Raise KeyError)
                          | Some d => (m ++ [OZip p a true; OExt (length m) d true false], Ok (HExtZip (S (length m)) (length m)))
                          end
                end
      end
  | SOpenZip v n =>
      match nth_error uz v with
      | Some z => match nth_error m z with
                  | Some (OZip _ a true) => match zread a n with
                                            | None => (m, Raise KeyError)
                                            | Some d => (m ++ [OExt z d true false], Ok (HExt (length m)))
                                            end
                  | _ => (m, Raise ValueError)
                  end
      | None => (m, Raise TypeError)
      end
  | SString s => (m ++ [OMem s true false], Ok (HMem (length m)))
  | SText p => match w p with Some b => (m ++ [OFile p true (Ok b) false], Ok (HText (HFile (length m)) decode)) | None => (m, Raise FileNotFoundError) end
  | SDec b dec => let '(m', r) := open_source uz m b in (m', let* h := r in Ok (HText h dec))
  | SGzipRaw p => match w p with Some b => (m ++ [OFile p true (gunzip b) false], Ok (HFile (length m))) | None => (m, Raise FileNotFoundError) end
  | SGzip p dec => match w p with Some b => (m ++ [OFile p true (gunzip b) false], Ok (HText (HFile (length m)) dec)) | None => (m, Raise FileNotFoundError) end
  | STgz p n dec =>
      match tar_members p with
      | Raise e => (m, Raise e)
      | Ok ms => match member_text ms n dec with
                 | Raise e => (m ++ [OFile p true (Ok []) false], Raise e)
                 | Ok t => (m ++ [OFile p true (Ok []) false; OMem t true false], Ok (HMemTar (S (length m)) (length m)))
                 end
      end
  end.

(** Programs that read.  [With s body k] is "with s.open() as f: body"; its handle is the variable with the
    number that [body] is given.  [k] gets the result or the exception of the block (or of open) - it may pass it on or catch
    it.  [WithZip] is "with ZipFile(p) as z".  Variables stay known after their block. *)
Inductive prog :=
| Done (r : res V)
| Read (v : nat) (k : res V -> prog)                          (* f.read() *)
| Close (v : nat) (k : prog)                                  (* f.close() *)
| CloseZip (v : nat) (k : prog)                               (* z.close() *)
| Size (p : path) (k : res V -> prog)                         (* is_empty of a file: os.path.getsize (io_utils.py:191-192) *)
| TarEmpty (p : path) (n : str) (k : res V -> prog)           (* is_empty of a file in a tgz (io_utils.py:246-248) *)
| With (s : source) (body : nat -> prog) (k : res V -> prog)
| WithZip (p : path) (body : nat -> prog) (k : res V -> prog).

(** The state of a program: all objects, the handles and the ZipFiles it has variables for. *)
Record state := { objs : heap; vars : list handle; zips : list nat }.
(** the calls that open something for themselves *)
Inductive event := EOpen (s : source) | ETarEmpty (p : path).
(** is_empty of a member of a tar file (io_utils.py:246-248): the tar file is not closed *)
Definition tar_empty (p : path) (n : str) (m : heap) : heap * res V :=
  match tar_members p with
  | Raise e => (m, Raise e)
  | Ok ms => (m ++ [OFile p true (Ok []) false],
      let* ms := ms in match find (fun x => str_eqb (m_name x) n) (rev ms) with
                       | None => Raise KeyError
                       | Some x => Ok (VBool (match m_data x with Some d => is_nil d | None => true end)) end)
  end.
(** Running a program: the state afterwards, the result, and what was opened, in order. *)
Fixpoint run (p : prog) (s : state) : state * res V * list event :=
  match p with
  | Done r => (s, r, [])
  | Read v k => match nth_error (vars s) v with
                | Some h => let '(m, r) := hread h (objs s) in run (k r) {| objs := m; vars := vars s; zips := zips s |}
                | None => run (k (Raise TypeError)) s
                end
  | Close v k => match nth_error (vars s) v with
                 | Some h => run k {| objs := hclose h (objs s); vars := vars s; zips := zips s |}
                 | None => run k s
                 end
  | CloseZip v k => match nth_error (zips s) v with
                    | Some z => run k {| objs := upd z shut_obj (objs s); vars := vars s; zips := zips s |}
                    | None => run k s
                    end
  | Size p k => run (k (let* b := read_file w p in Ok (VBool (is_nil b)))) s
  | TarEmpty p n k => let '(m, r) := tar_empty p n (objs s) in
      let '(s', r', tr) := run (k r) {| objs := m; vars := vars s; zips := zips s |} in (s', r', ETarEmpty p :: tr)
  | With src body k =>
      let '(m, r) := open_source (zips s) (objs s) src in
      match r with
      | Raise e => let '(s', r', tr) := run (k (Raise e)) {| objs := m; vars := vars s; zips := zips s |} in (s', r', EOpen src :: tr)
      | Ok h => let '(s1, r1, tr1) := run (body (length (vars s))) {| objs := m; vars := vars s ++ [h]; zips := zips s |} in
                let '(s2, r2, tr2) := run (k r1) {| objs := hclose h (objs s1); vars := vars s1; zips := zips s1 |} in
                (s2, r2, EOpen src :: tr1 ++ tr2)
      end
  | WithZip p body k =>
      match (let* c := read_file w p in unzip ZC c) with
      | Raise e => run (k (Raise e)) s
      | Ok a => let z := length (objs s) in
                let '(s1, r1, tr1) := run (body (length (zips s))) {| objs := objs s ++ [OZip p a true]; vars := vars s; zips := zips s ++ [z] |} in
                let '(s2, r2, tr2) := run (k r1) {| objs := upd z shut_obj (objs s1); vars := vars s1; zips := zips s1 |} in
                (s2, r2, tr1 ++ tr2)
      end
  end.
(** io_utils.py:68-73 *)
Definition p_read_all (s : source) : prog := With s (fun v => Read v Done) Done.
(** io_utils.py:75-82 *)
Definition p_readlines (s : source) : prog :=
  With s (fun v => Read v (fun r => Done (let* t := r in match t with VText t => Ok (VLines (map rstrip_lf (text_lines t))) | _ => Raise TypeError end))) Done.
(** io_utils.py:84-89, 173-174, 191-192, 212-215, 246-248 *)
Definition p_is_empty (s : source) : prog :=
  match s with
  | SString s => Done (Ok (VBool (is_nil s)))
  | SText p => Size p Done
  | SGzip p _ => With (SGzipRaw p) (fun v => Read v (fun r => Done (let* t := r in match t with VBytes t => Ok (VBool (is_nil (firstn 1 t))) | _ => Raise TypeError end))) Done
  | STgz p n _ => TarEmpty p n Done
  | _ => With s (fun v => Read v (fun r => Done (let* t := r in match t with VText t => Ok (VBool (is_nil (firstn 1 t))) | _ => Raise TypeError end))) Done
  end.
(** io_utils.py:329-336 *)
Definition p_read (s : source) (size : Z) : prog :=
  With s (fun v => Read v (fun r => Done (let* t := r in match t with VBytes c => Ok (VBytes (if (size <? 0)%Z then c else firstn (Z.to_nat size) c)) | _ => Raise TypeError end))) Done.

(** ** Specification *)
(** A file is open as long as its file object is; the file of a ZipFile as long as that or one of its member handles
    is. *)
Definition uses_file (m : heap) (i : nat) (p : path) : Prop :=
  match nth_error m i with
  | Some (OFile q b _ _) => q = p /\ b = true
  | Some (OZip q _ b) => q = p /\ (b = true \/ exists j d r, nth_error m j = Some (OExt i d true r))
  | _ => False
  end.
(** [l] are the open files (in the order of opening), a file opened twice occurring twice. *)
Fixpoint files_from (m : heap) (i : nat) (rest : heap) (l : list path) : Prop :=
  match rest with
  | [] => l = []
  | _ :: rest' => (exists p l', l = p :: l' /\ uses_file m i p /\ files_from m (S i) rest' l') \/ ((forall p, ~ uses_file m i p) /\ files_from m (S i) rest' l)
  end.
(** [l] are the files that are open *)
Definition open_files (m : heap) (l : list path) : Prop := files_from m 0 m l.
(** Opening a source leaves a file open when it is an archive that can be opened but not read: a zip file without the member; a tar file
    without it, or where it is no file or cannot be decoded, or that turns out to be damaged. *)
Fixpoint left_by_open (s : source) : list path :=
  match s with
  | SZip p n => match (let* c := read_file w p in unzip ZC c) with Ok a => match zread a n with None => [p] | Some _ => [] end | Raise _ => [] end
  | STgz p n dec => match tar_members p with Ok ms => match member_text ms n dec with Raise _ => [p] | Ok _ => [] end | Raise _ => [] end
  | SDec b _ => left_by_open b
  | _ => []
  end.
(** is_empty of a file in a tgz always leaves the tar file open, if it was opened. *)
Definition left_open (e : event) : list path :=
  match e with EOpen s => left_by_open s | ETarEmpty p => match tar_members p with Ok _ => [p] | Raise _ => [] end end.

(** One program after the other; [k] gets the result of the first. *)
Fixpoint seq (p : prog) (k : res V -> prog) : prog :=
  match p with
  | Done r => k r
  | Read v k' => Read v (fun r => seq (k' r) k)
  | Close v k' => Close v (seq k' k)
  | CloseZip v k' => CloseZip v (seq k' k)
  | Size p k' => Size p (fun r => seq (k' r) k)
  | TarEmpty p n k' => TarEmpty p n (fun r => seq (k' r) k)
  | With s body k' => With s body (fun r => seq (k' r) k)
  | WithZip p body k' => WithZip p body (fun r => seq (k' r) k)
  end.
(** A program that neither reads from nor closes the handle [v]. *)
Fixpoint leaves_alone (v : nat) (p : prog) : Prop :=
  match p with
  | Done _ => True
  | Read v' k => v' <> v /\ forall r, leaves_alone v (k r)
  | Close v' k => v' <> v /\ leaves_alone v k
  | CloseZip _ k => leaves_alone v k
  | Size _ k | TarEmpty _ _ k => forall r, leaves_alone v (k r)
  | With _ body k => (forall v', v' <> v -> leaves_alone v (body v')) /\ forall r, leaves_alone v (k r)
  | WithZip _ body k => (forall z, leaves_alone v (body z)) /\ forall r, leaves_alone v (k r)
  end.
(** The variables stand for objects that exist. *)
Definition sound (s : state) : Prop :=
  (forall v h i, nth_error (vars s) v = Some h -> In i (oids h) -> i < length (objs s)) /\ (forall i, In i (zips s) -> i < length (objs s)).
(** Nothing has been opened yet. *)
Definition start : state := {| objs := []; vars := []; zips := [] |}.
(** The decoders of a source make nothing of nothing. *)
Fixpoint empty_decodes (s : source) : Prop :=
  match s with SDec b dec => dec [] = Ok [] /\ empty_decodes b | SGzip _ dec => dec [] = Ok [] | _ => True end.
(** The same character source in the model of contents (Io.v), for sources that do not use a ZipFile of the caller's. *)
Definition source_of (c : char_source) : option source :=
  match c with
  | CString s => Some (SString s)
  | CFile p => Some (SText p)
  | CBytes (BFile p) dec => Some (SDec (SFile p) dec)
  | CBytes (BZip p n) dec => Some (SDec (SZip p n) dec)
  | CBytes (BOpenZip _ _) _ => None
  | CGzip p dec => Some (SGzip p dec)
  | CTgz p n dec => Some (STgz p n dec)
  end.
End Model.
