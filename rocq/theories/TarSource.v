(** * Model of the life of a tar source object (key_value.py:699-793): entering, leaving, iterators and their interleaving

    KeyValue.v models one complete iteration over an entered source.  Here the object is modelled with its state: every [with], every items() and every
    single next() is a step, the iterators share the open tar file, and the tar file reads its members only when asked to.
    Simplifications: the archive on disk does not change (an iterator of an earlier [with] reads contents through the tar file of a later one, at the old offsets);
    the functions of the caller are pure; the members' contents are read whole by one next(). *)
From Verif Require Import Prelude PyStr TextLib Io KeyValue.

Section TarSource.
Context {V : Type}.
(** key_function and name_filter of the source (key_value.py:718-727), the function of the interpreted source around it (key_value.py:769-775) *)
Variable key_function : str -> option str.
Variable name_filter : str -> bool.
Variable interpretation : str -> bytes -> res V.
(** the file: its members and the error that follows if the rest is damaged, or the error of tarfile.open (key_value.py:754) *)
Variable disk : res (list member * option exn).

(** A tarfile.TarFile open for reading, as used by key_value.py:741-754: how many members it has read (TarFile.members), whether the first, which is read by open, is still to be handed out
    (TarFile.firstmember), whether the end has been seen (TarFile._loaded), whether it is closed. *)
Record handle := Handle { h_cached : nat; h_first : bool; h_loaded : bool; h_closed : bool }.
(** tarfile.open (key_value.py:754): reads the first member *)
Definition open_handle : res handle :=
  match disk with
  | Raise e => Raise e
  | Ok ([], Some e) => Raise e
  | Ok ([], None) => Ok (Handle 0 false true false)
  | Ok (_ :: _, _) => Ok (Handle 1 true false false)
  end.
(** the members and the error after them *)
Definition content : list member * option exn := match disk with Ok c => c | Raise _ => ([], None) end.
(** TarFile.next (for key_value.py:741): the next member that was not handed out yet, None at the end *)
Definition read_member (h : handle) : handle * res (option member) :=
  if h_closed h then (h, Raise IOError)
  else if h_first h then (Handle (h_cached h) false (h_loaded h) false, Ok (nth_error (fst content) 0))
  else match nth_error (fst content) (h_cached h) with
       | Some m => (Handle (S (h_cached h)) false (h_loaded h) false, Ok (Some m))
       | None => match snd content with
                 | Some e => (h, Raise e)
                 | None => (Handle (h_cached h) false true false, Ok None)
                 end
       end.
(** TarFile.__iter__ (for key_value.py:741), one step at position [i]: members that were read before come from the list, the others from the file *)
Definition iter_member (h : handle) (i : nat) : handle * res (option member) :=
  if ((i =? 0) && h_first h)%bool then read_member h
  else if i <? h_cached h then (h, Ok (nth_error (fst content) i))
  else if h_loaded h then (h, Ok None) else read_member h.
(** TarFile.extractfile and read (key_value.py:745-749) *)
Definition extract_data (h : handle) (m : member) : res bytes :=
  if h_closed h then Raise IOError else match m_data m with Some d => Ok d | None => Raise IOError end.

(** An iterator: of the source or of the interpreted source around it; not started, at a position of a tar file, or finished (key_value.py:739-751, 780-786) *)
Inductive position := Fresh | At (tar : nat) (i : nat) | Finished.
(** iterators (key_value.py:739-751, 780-786) *)
Record iter := Iter { it_interpreted : bool; it_filter : str -> bool; it_pos : position }.
(** The source object (key_value.py:718-727): the tar files it has opened, [inp], the iterators made *)
Record source_object := Source { s_tars : list handle; s_inp : option nat; s_iters : list iter }.
(** __init__ (key_value.py:718-727) *)
Definition new_source : source_object := Source [] None [].

(** [l] with its n-th element replaced *)
Fixpoint set_nth {A} (l : list A) (n : nat) (a : A) : list A :=
  match l, n with
  | [], _ => []
  | _ :: r, 0 => a :: r
  | x :: r, S n' => x :: set_nth r n' a
  end.
(** what a call does: nothing, an exception, an iterator (numbered in order of creation), a pair, the end of the iteration *)
Inductive outcome := Done | Raised (e : exn) | Iterator (i : nat) | Yielded (k : str) (v : bytes + V) | Stopped.
(** the calls: __enter__, __exit__, items (of the source or of the interpreted source), next (key_value.py:729-793) *)
Inductive call := Enter | Exit | Items (interpreted : bool) (key_filter : str -> bool) | Next (i : nat).

(** The loop of the generator, key_value.py:741-751, from position [i] of tar file [t] to the next pair; [inp]: the tar file of the source. The fuel is enough for all members. *)
Fixpoint advance (fuel : nat) (tars : list handle) (inp t i : nat) (key_filter : str -> bool) : list handle * position * res (option (str * bytes)) :=
  match fuel with
  | 0 => (tars, Finished, Raise RecursionError)
  | S fuel' =>
      match nth_error tars t with
      | None => (tars, Finished, Raise RuntimeError)
      | Some h =>
          let '(h', r) := iter_member h i in
          let tars' := set_nth tars t h' in
          match r with
          | Raise e => (tars', Finished, Raise e)
          | Ok None => (tars', Finished, Ok None)
          | Ok (Some m) =>
              let skip := advance fuel' tars' inp t (S i) key_filter in
              if (m_isfile m && name_filter (m_name m))%bool then
                match key_function (m_name m) with
                | Some key =>
                    if (negb (is_nil key) && key_filter key)%bool then
                      match nth_error tars' inp with
                      | None => (tars', Finished, Raise RuntimeError)
                      | Some g => match extract_data g m with
                                  | Raise e => (tars', Finished, Raise e)
                                  | Ok d => (tars', At t (S i), Ok (Some (key, d)))
                                  end
                      end
                    else skip
                | None => skip
                end
              else skip
          end
      end
  end.
(** The generators go on from position [j] of tar file [t]: key_value.py:741-751, and 780-786 around it *)
Definition resume (s : source_object) (i : nat) (it : iter) (inp t j : nat) : source_object * outcome :=
  let put p := set_nth (s_iters s) i (Iter (it_interpreted it) (it_filter it) p) in
  let '(tars', p, r) := advance (S (S (length (fst content)))) (s_tars s) inp t j (it_filter it) in
  match r with
  | Raise e => (Source tars' (s_inp s) (put p), Raised e)
  | Ok None => (Source tars' (s_inp s) (put p), Stopped)
  | Ok (Some (k, d)) =>
      if it_interpreted it then
        match interpretation k d with
        | Raise e => (Source tars' (s_inp s) (put Finished), Raised e)
        | Ok v => (Source tars' (s_inp s) (put p), Yielded k (inr v))
        end
      else (Source tars' (s_inp s) (put p), Yielded k (inl d))
  end.
(** next(iterator): key_value.py:739-751, and 780-786 around it.  The interpreted source calls items of the wrapped source, with its check, only when the iteration starts. *)
Definition do_next (s : source_object) (i : nat) : source_object * outcome :=
  match nth_error (s_iters s) i with
  | None => (s, Done)
  | Some it =>
      match it_pos it, s_inp s with
      | Finished, _ => (s, Stopped)
      | _, None => (Source (s_tars s) None (set_nth (s_iters s) i (Iter (it_interpreted it) (it_filter it) Finished)), Raised AssertionError)
      | Fresh, Some inp => resume s i it inp inp 0
      | At t j, Some inp => resume s i it inp t j
      end
  end.
(** One call (key_value.py:729-793) *)
Definition step (s : source_object) (c : call) : source_object * outcome :=
  match c with
  | Enter => match open_handle with
             | Raise e => (s, Raised e)
             | Ok h => (Source (s_tars s ++ [h]) (Some (length (s_tars s))) (s_iters s), Done)
             end
  | Exit => match s_inp s with
            | None => (s, Raised AttributeError)
            | Some t => match nth_error (s_tars s) t with
                        | None => (s, Raised RuntimeError)
                        | Some h => (Source (set_nth (s_tars s) t (Handle (h_cached h) (h_first h) (h_loaded h) true)) (s_inp s) (s_iters s), Done)
                        end
            end
  | Items interpreted key_filter =>
      match interpreted, s_inp s with
      | false, None => (s, Raised AssertionError)
      | _, _ => (Source (s_tars s) (s_inp s) (s_iters s ++ [Iter interpreted key_filter Fresh]), Iterator (length (s_iters s)))
      end
  | Next i => do_next s i
  end.
(** A history: the state after it and the outcome of every call (key_value.py:699-793) *)
Fixpoint run (s : source_object) (h : list call) : source_object * list outcome :=
  match h with
  | [] => (s, [])
  | c :: r => let '(s', o) := step s c in let '(s'', os) := run s' r in (s'', o :: os)
  end.
End TarSource.
Arguments Yielded {V}. Arguments Done {V}. Arguments Raised {V}. Arguments Iterator {V}. Arguments Stopped {V}.
