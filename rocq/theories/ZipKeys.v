(** * Model of key_value.py: zip sinks and sources with key functions of the caller's *)
From Verif Require Import Prelude PyStr SortLib TextLib Utf8 Io KeyValue.

(** keys_in_function / keys_function: what it makes of the archive it is given (key_value.py:103-105, 454-475, 581-592) *)
Notation key_reader := (archive -> res (option (list str))) (only parsing).
(** keys_out_function: the archive it leaves behind and the exception it ends with, if any (key_value.py:106-108, 454-475) *)
Notation key_writer := (archive -> list str -> archive * option exn) (only parsing).

(** The default writer _write_keys_to_keys_file, key_value.py:59-60 *)
Definition default_writer (a : archive) (keys : list str) : archive * option exn :=
  match write_keys a keys with Ok a' => (a', None) | Raise e => (a, Some e) end.

(** _ZipKeyValueSink.__init__, key_value.py:454-475, as called by zip_character_sink and zip_bytes_sink, 97-166: check_arg raises
    ValueError.  Only the key functions are looked at. *)
Definition make_sink (kin : option key_reader) (kout : option key_writer) : res sink :=
  match kin, kout with
  | Some _, None => Raise ValueError
  | _, _ => Ok new_sink
  end.

Section Custom.
Variable fname : str -> str.
Variable set_order : list str -> list str.
Variable kin : option key_reader.
Variable kout : option key_writer.
(** __enter__, key_value.py:495-502; "if existing_keys" treats None and the empty set alike *)
Definition sink_enter_with (overwrite : bool) (d : disk) (s : sink) : disk * sink * res unit :=
  let a := if overwrite then [] else entries d in
  let d1 := if overwrite then Partial else match d with Absent => Partial | _ => d end in
  match match kin with Some f => f a | None => Ok None end with
  | Raise e => (d1, {| s_state := Opened a; s_keys := s_keys s |}, Raise e)
  | Ok existing => (d1, {| s_state := Opened a; s_keys := s_keys s ++ filter (fun k => negb (in_keys k (s_keys s))) (match existing with Some ks => ks | None => [] end) |}, Ok tt)
  end.
(** __exit__, key_value.py:504-508.  Simplification: on a sink which is not open the outcome is that of the default functions. *)
Definition sink_exit_with (d : disk) (s : sink) : disk * sink * res unit :=
  match s_state s with
  | NotOpened => (d, s, Raise AttributeError)
  | Closed => (d, s, match kout with Some _ => match encode (py_join [LF] (set_order (s_keys s))) with Ok _ => Raise ValueError | Raise e => Raise e end | None => Ok tt end)
  | Opened a => match match kout with Some f => f a (set_order (s_keys s)) | None => (a, None) end with
                | (a', None) => (Zip a', {| s_state := Closed; s_keys := s_keys s |}, Ok tt)
                | (a', Some e) => (d, {| s_state := Opened a'; s_keys := s_keys s |}, Raise e)
                end
  end.
(** One "with" block (key_value.py:477-508) *)
Definition session_with (overwrite : bool) (d : disk) (s : sink) (ops : list (str * value)) : disk * sink * (res unit * list (res unit) * res unit) :=
  let '(d1, s1, e) := sink_enter_with overwrite d s in
  match e with
  | Raise x => (d1, s1, (Raise x, [], Ok tt))
  | Ok _ => let '(d2, s2, os) := puts fname d1 s1 ops in let '(d3, s3, x) := sink_exit_with d2 s2 in (d3, s3, (Ok tt, os, x))
  end.
(** A history of "with" blocks on one file, each with a new sink (key_value.py:454-508) *)
Definition run_history_with (h : list (bool * list (str * value))) (d : disk) : disk :=
  fold_left (fun d s => fst (fst (session_with (fst s) d new_sink (snd s)))) h d.
End Custom.

(** ** Source objects (key_value.py:581-637) *)
(** self._zip_file and self._keys *)
Record source_object := { o_zip : option archive; o_keys : option (list str) }.
(** __init__, key_value.py:581-592 *)
Definition new_source : source_object := {| o_zip := None; o_keys := None |}.
(** __enter__, key_value.py:628-632.  If the keys function fails the zip file stays open and the keys are the old ones. *)
Definition enter_source (kin : option key_reader) (d : disk) (o : source_object) : source_object * res unit :=
  match d with
  | Absent => (o, Raise FileNotFoundError)
  | Partial => (o, Raise AnyError)
  | Zip a => match kin with
             | None => ({| o_zip := Some a; o_keys := o_keys o |}, Ok tt)
             | Some f => match f a with
                         | Ok ks => ({| o_zip := Some a; o_keys := ks |}, Ok tt)
                         | Raise e => ({| o_zip := Some a; o_keys := o_keys o |}, Raise e)
                         end
             end
  end.
(** __exit__, key_value.py:634-637 *)
Definition exit_source (o : source_object) : source_object * res unit :=
  match o_zip o with
  | None => (o, Raise AssertionError)
  | Some _ => ({| o_zip := None; o_keys := o_keys o |}, Ok tt)
  end.
(** What the object's keys(), [] and get do in its present state, key_value.py:594-626 *)
Definition view {V} (fname : str -> str) (process : bytes -> res V) (o : source_object) : source V :=
  zip_source fname process (match o_zip o with None => None | Some a => Some (a, o_keys o) end).
(** What is done with a source object: entering it (the file being as given), leaving it (key_value.py:628-637) *)
Inductive use := Enter (d : disk) | Exit.
(** key_value.py:628-637 *)
Definition use_source (kin : option key_reader) (o : source_object) (u : use) : source_object * res unit :=
  match u with Enter d => enter_source kin d o | Exit => exit_source o end.
(** A sequence of uses, every error caught by the caller (key_value.py:628-637) *)
Definition uses (kin : option key_reader) (l : list use) : source_object := fold_left (fun o u => fst (use_source kin o u)) l new_source.
