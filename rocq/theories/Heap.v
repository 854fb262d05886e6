(** * Parameters as objects: which dictionaries and lists are copied, which are shared, which are changed

    Params.v models Parameters, dictionaries and lists as values.  Here they are objects in a heap, so that it is visible when two of them contain the same
    list, or when a function changes a dictionary it was given.  Recursion is limited, as in Python, by a number of nested calls.
    Simplifications: dictionary keys are str; Mappings are dicts; values other than dictionaries, lists and Parameters are immutable. *)
From Verif Require Import Prelude PyStr Order Range Params.

(** A Python object: an immutable value, or the place of a dictionary, list or Parameters object in the heap (parameters.py:73-78) *)
Inductive obj : Type := Leaf (v : pv) | Ref (l : nat).
(** What is in the heap; a Parameters object is frozen (attrs) and its _data an ImmutableDict (parameters.py:56-78) *)
Inductive cell : Type := CDict (items : list (str * obj)) | CList (items : list obj) | CParams (prefix : list str) (items : list (str * obj)).
(** the object's content (parameters.py:73-78) *)
Definition deref (h : list cell) (o : obj) : option cell := match o with Leaf _ => None | Ref l => nth_error h l end.
(** item assignment to the object at [l], which is a dictionary or a list (parameters.py:146) *)
Fixpoint put_cell (h : list cell) (l : nat) (c : cell) : list cell :=
  match h, l with [], _ => [] | _ :: r, O => c :: r | x :: r, S n => x :: put_cell r n c end.

(** The loops over the items of a dictionary (parameters.py:111-124, 162, 215-236), which build the items of a new one; [f] is the loop's body. *)
Fixpoint h_each (f : list cell -> str -> obj -> list cell * res obj) (h : list cell) (items : list (str * obj)) : list cell * res (list (str * obj)) :=
  match items with
  | [] => (h, Ok [])
  | (k, v) :: r =>
      match f h k v with
      | (h1, Raise e) => (h1, Raise e)
      | (h1, Ok v') => match h_each f h1 r with (h2, Raise e) => (h2, Raise e) | (h2, Ok r') => (h2, Ok ((k, v') :: r')) end
      end
  end.
(** parameters.py:99-125 (from_mapping): a value that is not a dictionary is kept; the new objects are added at the end of the heap; check_isinstance fails for
    everything but dictionaries *)
Fixpoint h_from_mapping (fuel : nat) (h : list cell) (prefix : list str) (o : obj) : list cell * res obj :=
  match fuel with
  | 0 => (h, Raise RecursionError)
  | S n =>
      match deref h o with
      | Some (CDict items) =>
          match h_each (fun h k v => match deref h v with Some (CDict _) => h_from_mapping n h (prefix ++ [k]) v | _ => (h, Ok v) end) h items with
          | (h1, Raise e) => (h1, Raise e)
          | (h1, Ok d) => if existsb (fun kv => has_dot (fst kv)) d then (h1, Raise ValueError) else (h1 ++ [CParams prefix d], Ok (Ref (length h1)))
          end
      | _ => (h, Raise TypeError)
      end
  end.
(** parameters.py:153-169 (as_nested_dicts): new dictionaries for Parameters objects; dictionaries and other values are kept *)
Fixpoint h_dictify (fuel : nat) (h : list cell) (o : obj) : list cell * res obj :=
  match fuel with
  | 0 => (h, Raise RecursionError)
  | S n =>
      match deref h o with
      | Some (CParams _ items) =>
          match h_each (fun h _ v => h_dictify n h v) h items with
          | (h1, Raise e) => (h1, Raise e)
          | (h1, Ok d) => (h1 ++ [CDict d], Ok (Ref (length h1)))
          end
      | _ => (h, Ok o)
      end
  end.

(** isinstance(v, Parameters) (parameters.py:218) *)
Definition h_is_params (h : list cell) (o : obj) : bool := match deref h o with Some (CParams _ _) => true | _ => false end.
(** "key in params" for a key without dots (parameters.py:216, 238, 522-523): present and not None *)
Definition h_contains (items : list (str * obj)) (k : str) : bool := match dfind items k with Some (Leaf PNone) => false | Some _ => true | None => false end.
(** parameters.py:213-242 (unify), on two Parameters objects; the dictionary built is a new object, given to from_mapping *)
Fixpoint h_unify (fuel : nat) (h : list cell) (a b : obj) (prefix : list str) : list cell * res obj :=
  match fuel with
  | 0 => (h, Raise RecursionError)
  | S n =>
      match deref h a, deref h b with
      | Some (CParams _ da), Some (CParams _ db) =>
          match h_each (fun h k old =>
                          if h_contains db k then
                            match dfind db k with
                            | None => (h, Raise KeyError)
                            | Some new =>
                                if negb (Bool.eqb (h_is_params h old) (h_is_params h new)) then (h, Raise IOError)
                                else if h_is_params h old then h_unify n h old new (prefix ++ [k]) else (h, Ok new)
                            end
                          else (h, Ok old)) h da with
          | (h1, Raise e) => (h1, Raise e)
          | (h1, Ok r1) =>
              let ret := fold_left (fun ret kv => if h_contains da (fst kv) then ret else dput ret (fst kv) (snd kv)) db r1 in
              h_from_mapping n (h1 ++ [CDict ret]) prefix (Ref (length h1))
          end
      | _, _ => (h, Raise AttributeError)
      end
  end.
(** parameters.py:188-242 (unify): what is no Parameters object is converted first *)
Definition h_unify_with (fuel : nat) (h : list cell) (a b : obj) (prefix : list str) : list cell * res obj :=
  if h_is_params h b then h_unify fuel h a b prefix
  else match h_from_mapping fuel h [] b with (h1, Raise e) => (h1, Raise e) | (h1, Ok b') => h_unify fuel h1 a b' prefix end.

(** parameters.py:139-146: going down from the dictionary at [d] along the parts of a key, making dictionaries where there is nothing, and setting the last *)
Fixpoint h_insert (h : list cell) (d : nat) (parts : list str) (v : obj) : list cell * res unit :=
  match parts with
  | [] => (h, Ok tt)
  | k :: rest =>
      match nth_error h d with
      | Some (CDict items) =>
          match rest with
          | [] => (put_cell h d (CDict (dput items k v)), Ok tt)
          | _ => match dfind items k with
                 | None => h_insert (put_cell h d (CDict (dput items k (Ref (length h)))) ++ [CDict []]) (length h) rest v
                 | Some (Ref l) => h_insert h l rest v
                 | Some (Leaf _) => (h, Raise TypeError)
                 end
          end
      | _ => (h, Raise TypeError)
      end
  end.
(** parameters.py:135-150: one key-value pair after the other, into the dictionary at [d] *)
Fixpoint h_insert_all (h : list cell) (d : nat) (kvs : list (str * obj)) (sep : N) : list cell * res unit :=
  match kvs with
  | [] => (h, Ok tt)
  | ([], _) :: _ => (h, Raise RuntimeError)
  | (k, v) :: r => match h_insert h d (py_split sep k) v with (h1, Raise e) => (h1, Raise e) | (h1, Ok _) => h_insert_all h1 d r sep end
  end.
(** parameters.py:127-151 (from_key_value_pairs) *)
Definition h_from_pairs (fuel : nat) (h : list cell) (kvs : list (str * obj)) (sep : N) : list cell * res obj :=
  match h_insert_all (h ++ [CDict []]) (length h) kvs sep with
  | (h1, Raise e) => (h1, Raise e)
  | (h1, Ok _) => h_from_mapping fuel h1 [] (Ref (length h))
  end.

(** What a program can do with the objects it has: make dictionaries and lists, change them, and call the functions of parameters.py:99-242 *)
Inductive event : Type :=
| NewDict (items : list (str * obj)) | NewList (items : list obj)
| SetDict (l : nat) (items : list (str * obj)) | SetList (l : nat) (items : list obj)
| FromMapping (o : obj) (prefix : list str) | FromPairs (kvs : list (str * obj)) (sep : N) | AsDicts (o : obj) | Unify (a b : obj) (prefix : list str).
(** immutable values (parameters.py:73-78) *)
Definition immutable (v : pv) : bool := match v with PList _ | PMap _ | PParams _ _ => false | _ => true end.
(** the object exists (a program has no others) (parameters.py:99-242) *)
Definition exists_obj (h : list cell) (o : obj) : bool := match o with Leaf v => immutable v | Ref l => l <? length h end.
(** the objects a program uses in an event (parameters.py:99-242) *)
Definition uses (e : event) : list obj :=
  match e with
  | NewDict i | SetDict _ i => map snd i | NewList i | SetList _ i => i
  | FromMapping o _ | AsDicts o => [o] | FromPairs kvs _ => map snd kvs | Unify a b _ => [a; b]
  end.
(** One event; nothing happens if objects are used which do not exist, or if an item is to be set in something else than a dictionary or list.
    [limit] is Python's limit of nested calls (parameters.py:99-242). *)
Definition happen (limit : nat) (h : list cell) (e : event) : list cell :=
  if forallb (exists_obj h) (uses e) then
    match e with
    | NewDict i => h ++ [CDict i]
    | NewList i => h ++ [CList i]
    | SetDict l i => match nth_error h l with Some (CDict _) => put_cell h l (CDict i) | _ => h end
    | SetList l i => match nth_error h l with Some (CList _) => put_cell h l (CList i) | _ => h end
    | FromMapping o prefix => fst (h_from_mapping limit h prefix o)
    | FromPairs kvs sep => fst (h_from_pairs limit h kvs sep)
    | AsDicts o => fst (h_dictify limit h o)
    | Unify a b prefix => fst (h_unify_with limit h a b prefix)
    end
  else h.
(** a program: one event after the other, from the empty heap (parameters.py:99-242) *)
Definition history (limit : nat) (h : list cell) (es : list event) : list cell := fold_left (happen limit) es h.
