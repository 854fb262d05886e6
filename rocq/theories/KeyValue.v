(** * Model of key_value.py: key-value sinks and sources *)
From Verif Require Import Prelude PyStr SortLib TextLib Utf8 Io.

(** ** Key lists (key_value.py:46-60) *)
Definition keys_entry : str := !!"__keys".
(** _read_keys_from_keys_file, 46-56: None if there is no "__keys" entry.  An immutableset keeps the order of first occurrence. *)
Definition read_keys (a : archive) : res (option (list str)) :=
  match zread a keys_entry with
  | None => Ok None
  | Some [] => Ok (Some [])
  | Some data => let* t := decode data in Ok (Some (dedup (py_split LF t)))
  end.
(** ZipFile.writestr(name, data) for data already encoded.  (Python up to 3.11 fails with IndexError on an empty name.) *)
Definition writestr (a : archive) (name : str) (data : bytes) : res archive :=
  match zip_name name with [] => Raise IndexError | _ => zappend a name data end.
(** _write_keys_to_keys_file, 59-60 *)
Definition write_keys (a : archive) (keys : list str) : res archive :=
  let* b := encode (py_join [LF] keys) in writestr a keys_entry b.

(** ** Zip sinks (key_value.py:454-508) *)
(** The zip file on disk: absent, not (yet) a complete zip file, or complete. *)
Inductive disk := Absent | Partial | Zip (a : archive).
(** A value passed to put: None, a str, bytes or anything else. *)
Inductive value := VNone | VStr (s : str) | VBytes (b : bytes) | VOther.
(** self._zip_file: None, open (with the entries so far) or closed *)
Inductive zstate := NotOpened | Opened (a : archive) | Closed.
(** _ZipKeyValueSink: the zip file and the keys used so far (a set; the list is in order of insertion) *)
Record sink := { s_state : zstate; s_keys : list str }.
(** _ZipKeyValueSink.__init__, key_value.py:454-475 *)
Definition new_sink : sink := {| s_state := NotOpened; s_keys := [] |}.

Section Zip.
(** filename_function *)
Variable fname : str -> str.
(** The order in which Python's set of keys is iterated. *)
Variable set_order : list str -> list str.

(** "in" on the set of keys (key_value.py:477-489) *)
Definition in_keys (k : str) (ks : list str) : bool := existsb (str_eqb k) ks.
(** what ZipFile(path, "a") finds (key_value.py:495-502): a file which is no zip file counts as empty *)
Definition entries (d : disk) : archive := match d with Zip a => a | _ => [] end.
(** put, 477-489.  check_state raises AssertionError, check_not_none and check_arg ValueError.  The key is recorded before the value is
    looked at. *)
Definition put (d : disk) (s : sink) (key : str) (v : value) : disk * sink * res unit :=
  match s_state s with
  | NotOpened => (d, s, Raise AssertionError)
  | st =>
      match v with
      | VNone => (d, s, Raise ValueError)
      | _ =>
          if in_keys key (s_keys s) then (d, s, Raise ValueError)
          else
            let s1 := {| s_state := st; s_keys := s_keys s ++ [key] |} in
            match match v with VStr t => encode t | VBytes b => Ok b | _ => Raise ValueError end with
            | Raise e => (d, s1, Raise e)
            | Ok data =>
                match st with
                | Opened a => match writestr a (fname key) data with
                              | Ok a' => (Partial, {| s_state := Opened a'; s_keys := s_keys s1 |}, Ok tt)
                              | Raise e => (d, s1, Raise e)
                              end
                | _ => (d, s1, Raise (match zip_name (fname key) with [] => IndexError | _ => ValueError end))
                end
            end
      end
  end.
(** __enter__, 495-502: mode "w" truncates the file, mode "a" keeps its entries *)
Definition sink_enter (overwrite : bool) (d : disk) (s : sink) : disk * sink * res unit :=
  let a := if overwrite then [] else entries d in
  let d1 := if overwrite then Partial else match d with Absent => Partial | _ => d end in
  match read_keys a with
  | Raise e => (d1, {| s_state := Opened a; s_keys := s_keys s |}, Raise e)
  | Ok existing => (d1, {| s_state := Opened a; s_keys := s_keys s ++ filter (fun k => negb (in_keys k (s_keys s))) (match existing with Some ks => ks | None => [] end) |}, Ok tt)
  end.
(** __exit__, 504-508; if writing the keys fails the file is not closed.  The keys are joined and encoded before the zip file is asked (59-60). *)
Definition sink_exit (d : disk) (s : sink) : disk * sink * res unit :=
  match s_state s with
  | NotOpened => (d, s, Raise AttributeError)
  | Closed => (d, s, match encode (py_join [LF] (set_order (s_keys s))) with Ok _ => Raise ValueError | Raise e => Raise e end)
  | Opened a => match write_keys a (set_order (s_keys s)) with
                | Ok a' => (Zip a', {| s_state := Closed; s_keys := s_keys s |}, Ok tt)
                | Raise e => (d, s, Raise e)
                end
  end.
(** with sink: put ... put.  Every put may fail; its error is caught by the caller, or the list of puts ends there: __exit__ runs in
    both cases. *)
Fixpoint puts (d : disk) (s : sink) (ops : list (str * value)) : disk * sink * list (res unit) :=
  match ops with
  | [] => (d, s, [])
  | (k, v) :: r => let '(d1, s1, o) := put d s k v in let '(d2, s2, os) := puts d1 s1 r in (d2, s2, o :: os)
  end.
(** One "with" block on a sink: the outcome of __enter__, of the puts and of __exit__ (not called if __enter__ fails). *)
Definition session (overwrite : bool) (d : disk) (s : sink) (ops : list (str * value)) : disk * sink * (res unit * list (res unit) * res unit) :=
  let '(d1, s1, e) := sink_enter overwrite d s in
  match e with
  | Raise x => (d1, s1, (Raise x, [], Ok tt))
  | Ok _ => let '(d2, s2, os) := puts d1 s1 ops in let '(d3, s3, x) := sink_exit d2 s2 in (d3, s3, (Ok tt, os, x))
  end.
End Zip.

(** ** Sources *)
(** A key-value source as its users see it: keys() (None if unknown), source[key], source.get(key, default) (None standing for "the
    default was returned"). *)
Record source (V : Type) := { src_keys : res (option (list str)); src_item : str -> res V; src_get : str -> res (option V) }.
Arguments src_keys {V} _. Arguments src_item {V} _ _. Arguments src_get {V} _ _.
(** What a generator yields: pairs, then possibly an exception. *)
Definition stream (V : Type) : Type := list (str * V) * option exn.
(** a generator's for loop with filter, up to the first exception (key_value.py:290-307, 729-751, 777-786) *)
Fixpoint yield_all {A V} (f : A -> res (option (str * V))) (l : list A) : stream V :=
  match l with
  | [] => ([], None)
  | x :: r => match f x with
              | Raise e => ([], Some e)
              | Ok None => yield_all f r
              | Ok (Some kv) => let '(ys, e) := yield_all f r in (kv :: ys, e)
              end
  end.
(** KeyValueSource.items, 290-307 *)
Definition items {V} (s : source V) (key_filter : str -> bool) : res (stream V) :=
  let* ks := src_keys s in
  match ks with
  | None => Raise NotImplementedError
  | Some ks => Ok (yield_all (fun k => if key_filter k then let* v := src_item s k in Ok (Some (k, v)) else Ok None) ks)
  end.

(** Zip sources, 581-694.  The state: None outside a "with" block, else the archive and the keys read. *)
Definition zsource := option (archive * option (list str)).
(** __enter__, 628-632 *)
Definition source_enter (d : disk) : res zsource :=
  match d with
  | Absent => Raise FileNotFoundError
  | Partial => Raise AnyError
  | Zip a => let* ks := read_keys a in Ok (Some (a, ks))
  end.
(** key_value.py:581-694 *)
Definition zip_source {V} (fname : str -> str) (process : bytes -> res V) (z : zsource) : source V :=
  let lookup k := match z with
                  | None => Raise AssertionError
                  | Some (a, _) => match zread a (fname k) with None => Ok None | Some b => let* v := process b in Ok (Some v) end
                  end in
  {| src_keys := match z with None => Raise AssertionError | Some (_, ks) => Ok ks end;      (* 594-596 *)
     src_item k := let* o := lookup k in opt_or_raise o KeyError;                              (* 598-602, 607-622 *)
     src_get k := lookup k |}.                                                                 (* 604-605 *)
(** _process_bytes, 650-651, 680-681 *)
Definition bytes_value : bytes -> res bytes := Ok.
(** key_value.py:680-681 *)
Definition str_value : bytes -> res str := decode.

(** Sources over a map from ids to paths, 541-578; [read] reads a file. *)
Fixpoint assoc {V} (m : list (str * V)) (k : str) : option V :=
  match m with [] => None | (k', v) :: r => if str_eqb k' k then Some v else assoc r k end.
(** key_value.py:541-578 *)
Definition path_source {V} (m : list (str * str)) (read : str -> res V) : source V :=
  {| src_keys := Ok (Some (map fst m));
     src_item k := match assoc m k with None => Raise KeyError | Some p => read p end;
     src_get k := match assoc m k with None => Ok None | Some p => let* v := read p in Ok (Some v) end |}.

(** _InterpretedKeyValueSource, 796-833 *)
Definition interpreted {T V} (f : str -> T -> res V) (s : source T) : source V :=
  {| src_keys := src_keys s;
     src_item k := let* t := src_item s k in f k t;
     src_get k := let* o := src_get s k in match o with None => Ok None | Some t => let* v := f k t in Ok (Some v) end |}.
(** InterpretedLinearKeyValueSource.items, 777-786: the wrapped generator is created when iteration starts *)
Definition interpreted_items {T V} (f : str -> T -> res V) (wrapped : res (stream T)) : stream V :=
  match wrapped with
  | Raise e => ([], Some e)
  | Ok (ys, e) => let '(zs, e') := yield_all (fun kt => let* v := f (fst kt) (snd kt) in Ok (Some (fst kt, v))) ys in
                  (zs, match e' with Some x => Some x | None => e end)
  end.

(** TarGzipBytesLinearKeyValueSource.items, 729-751; [inp] is None before __enter__.  key_function may return None; an empty key counts
    as None too. *)
Definition tar_items (key_function : str -> option str) (name_filter key_filter : str -> bool) (inp : option (list member)) : res (stream bytes) :=
  match inp with
  | None => Raise AssertionError
  | Some ms =>
      Ok (yield_all (fun m =>
            if (m_isfile m && name_filter (m_name m))%bool then
              match key_function (m_name m) with
              | Some key => if (negb (is_nil key) && key_filter key)%bool
                            then match m_data m with Some d => Ok (Some (key, d)) | None => Raise IOError end
                            else Ok None
              | None => Ok None
              end
            else Ok None) ms)
  end.

(** ** Directory sinks (key_value.py:400-451) *)
(** State of the directory when the sink is entered. *)
Inductive dirstate := NoDir | EmptyDir | NonEmptyDir.
Section Dir.
Variable write_error : world -> str -> option exn.
(** self._path / key, as a string; the directory is absolute *)
Variable join : str -> str.
(** __enter__, 410-414 / 437-441: rmdir fails unless the directory exists and is empty *)
Definition dir_enter (st : dirstate) : res unit :=
  match st with NoDir => Raise FileNotFoundError | NonEmptyDir => Raise IOError | EmptyDir => Ok tt end.
(** id_to_file[key] = out_file *)
Fixpoint dict_set (m : list (str * str)) (k p : str) : list (str * str) :=
  match m with [] => [(k, p)] | (k', q) :: r => if str_eqb k' k then (k', p) :: r else (k', q) :: dict_set r k p end.
(** put, 405-408 / 432-435; [write] is CharSink.write or ByteSink.write *)
Definition dir_put {V} (write : world -> str -> V -> world * res unit) (w : world) (m : list (str * str)) (k : str) (v : V) : world * list (str * str) * res unit :=
  match write w (join k) v with
  | (w', Ok _) => (w', dict_set m k (join k), Ok tt)
  | (w', Raise e) => (w', m, Raise e)
  end.
(** a sequence of puts (key_value.py:405-408 / 432-435), each error caught by the caller *)
Fixpoint dir_puts {V} (write : world -> str -> V -> world * res unit) (w : world) (m : list (str * str)) (ops : list (str * V)) : world * list (str * str) * list (res unit) :=
  match ops with
  | [] => (w, m, [])
  | (k, v) :: r => let '(w1, m1, o) := dir_put write w m k v in let '(w2, m2, os) := dir_puts write w1 m1 r in (w2, m2, o :: os)
  end.
(** key_value.py:416-417 / 443-444 *)
Definition index_name : str := !!"_index".
(** __exit__, 416-417 / 443-444 *)
Definition dir_exit (w : world) (m : list (str * str)) : world * res unit :=
  char_file_write write_error w (join index_name) (write_doc_id_to_file_map m).
(** one "with" block on a directory sink, key_value.py:400-451 *)
Definition dir_session {V} (write : world -> str -> V -> world * res unit) (st : dirstate) (w : world) (ops : list (str * V)) : world * (res unit * list (res unit) * res unit) :=
  match dir_enter st with
  | Raise e => (w, (Raise e, [], Ok tt))
  | Ok _ => let '(w1, m, os) := dir_puts write w [] ops in let '(w2, x) := dir_exit w1 m in (w2, (Ok tt, os, x))
  end.
End Dir.
