(** * Model of the YAML loader's interpolation (parameters.py:1558-1731) *)
From Verif Require Import Prelude PyStr Order Range Params Graph.

(** ** The regular expression %([\w.\-]+)% (parameters.py:1556): findall, sub and fullmatch.
    [\w] is a parameter: any character class that does not contain '%'.  The scanner below keeps
    the text since the last unmatched '%'. *)
Inductive token := TChar (c : N) | TRef (n : str).
(** the delimiter in the regular expression of parameters.py:1554 *)
Definition pct : N := 37%N.
(** a character of the regular expression of parameters.py:1554 *)
Definition dash : N := 45%N.
Section Interp.
Variable is_word : N -> bool.
Variable float_truthy : N -> bool.
(** the class [\w.-] of the regular expression of parameters.py:1554 *)
Definition is_ref (c : N) : bool := is_word c || (c =? dot)%N || (c =? dash)%N.
(** re.sub / re.finditer with the regular expression of parameters.py:1554, left to right *)
Fixpoint scan (open_ : option str) (s : str) : list token :=
  match s with
  | [] => match open_ with None => [] | Some acc => TChar pct :: map TChar acc end
  | c :: r =>
      match open_ with
      | None => if (c =? pct)%N then scan (Some []) r else TChar c :: scan None r
      | Some acc =>
          if (c =? pct)%N then
            match acc with
            | [] => TChar pct :: scan (Some []) r
            | _ => TRef acc :: scan None r
            end
          else if is_ref c then scan (Some (acc ++ [c])) r
          else TChar pct :: map TChar acc ++ TChar c :: scan None r
      end
  end.
(** as above, from the start of the string *)
Definition tokens (s : str) : list token := scan None s.
(** the groups matched (parameters.py:1640-1657) *)
Definition refs (ts : list token) : list str := flat_map (fun t => match t with TRef n => [n] | TChar _ => [] end) ts.

(** ** The mutable nested dicts (parameters.py:1627).
    as_nested_dicts makes fresh dicts; the dict created at path q has identity q and keeps it: only
    items of dicts are assigned.  The store lists the items: (identity of the dict ++ [key]) -> value,
    in iteration order.  A value is another dict (by identity, so that several items can hold the
    same dict) or a leaf. *)
Inductive val := VDict (id : list str) | VLeaf (v : pv).
(** see above (parameters.py:1558-1731) *)
Definition store := list (list str * val).
(** equality of addresses (no counterpart in the code) *)
Definition path_eqb (a b : list str) : bool := if list_eq_dec (list_eq_dec N.eq_dec) a b then true else false.
(** the object at an address (no counterpart in the code) *)
Fixpoint sfind (st : store) (q : list str) : option val :=
  match st with [] => None | (q', v) :: r => if path_eqb q' q then Some v else sfind r q end.
(** assignment at an address (no counterpart in the code) *)
Fixpoint sput (st : store) (q : list str) (v : val) : store :=
  match st with [] => [(q, v)] | (q', v') :: r => if path_eqb q' q then (q', v) :: r else (q', v') :: sput r q v end.
(** what an address holds (no counterpart in the code) *)
Definition cell (v : pv) (q : list str) : val := match v with PMap _ => VDict q | x => VLeaf x end.
(** the nested dicts that parameters.py:1558 receives, laid out by address *)
Fixpoint flatten (pre : list str) (t : pv) : store :=
  match t with
  | PMap m => flat_map (fun kv => (pre ++ [fst kv], cell (snd kv) (pre ++ [fst kv]))
                                  :: flatten (pre ++ [fst kv]) (snd kv)) m
  | _ => []
  end.
(** The items of the dict [id]. *)
Fixpoint strip_path (id q : list str) : option (list str) :=
  match id, q with
  | [], _ => Some q
  | a :: id', b :: q' => if str_eqb a b then strip_path id' q' else None
  | _, [] => None
  end.
(** the items of a dict (parameters.py:1640-1657) *)
Definition children (st : store) (id : list str) : list (str * val) :=
  flat_map (fun e => match strip_path id (fst e) with Some [k] => [(k, snd e)] | _ => [] end) st.

(** bool(value) *)
Definition truthy (v : pv) : bool :=
  match v with
  | PNone => false | PBool b => b | PInt z => negb (z =? 0)%Z | PFloat f => float_truthy f
  | PStr s => match s with [] => false | _ => true end
  | PBytes s => match s with [] => false | _ => true end
  | PList l => match l with [] => false | _ => true end
  | PMap m => match m with [] => false | _ => true end
  | PPath _ | PParams _ _ | POther _ => true
  end.
(** Python's bool(value) (parameters.py:1640-1727) *)
Definition vtruthy (st : store) (v : val) : bool :=
  match v with VDict id => match children st id with [] => false | _ => true end | VLeaf v => truthy v end.

(** [part in cur] for something that is not a dict: substring test, element test, Parameters
    lookup, or a TypeError. *)
Fixpoint starts_with (p s : str) : bool :=
  match p, s with [], _ => true | a :: p', b :: s' => (a =? b)%N && starts_with p' s' | _, [] => false end.
(** "in" between strings (parameters.py:1598-1610) *)
Fixpoint substring (p s : str) : bool :=
  starts_with p s || match s with [] => false | _ :: r => substring p r end.
(** "k in v" for v not a dict (parameters.py:1598-1610) *)
Definition leaf_in (k : str) (v : pv) : res bool :=
  match v with
  | PStr s => Ok (substring k s)
  | PList l => Ok (existsb (fun x => match x with PStr s => str_eqb s k | _ => false end) l)
  | PParams _ _ => Ok (Params.contains v k)
  | _ => Raise TypeError
  end.
(** parameters.py:1598-1610 (get_from_nested_dict).  Indexing a non-dict with a str is a TypeError;
    [.get] on a leaf is an AttributeError, on a Parameters object it is Parameters.get(k, None),
    which raises. *)
Fixpoint walkn (st : store) (cur : val) (parts : list str) : res (option val) :=
  match parts with
  | [] => Ok None
  | [k] => match cur with
           | VDict id => Ok (sfind st (id ++ [k]))
           | VLeaf (PParams pre d) => match private_get (PParams pre d) k false PNone with Ok _ => Raise TypeError | Raise e => Raise e end
           | VLeaf _ => Raise AttributeError
           end
  | k :: rest => match cur with
                 | VDict id => match sfind st (id ++ [k]) with Some v => walkn st v rest | None => Ok None end
                 | VLeaf v => let* b := leaf_in k v in if b then Raise TypeError else Ok None
                 end
  end.
(** get_from_nested_dict, parameters.py:1598-1610 *)
Definition getn (st : store) (name : str) : res (option val) := walkn st (VDict []) (py_split dot name).
(** parameters.py:1612-1623 (set_in_nested_dict) *)
Fixpoint setw (st : store) (cur : val) (parts : list str) (w : val) : res store :=
  match parts with
  | [] => Ok st
  | [k] => match cur with VDict id => Ok (sput st (id ++ [k]) w) | VLeaf _ => Raise TypeError end
  | k :: rest => match cur with
                 | VDict id => match sfind st (id ++ [k]) with Some v => setw st v rest w | None => Ok st end
                 | VLeaf v => let* b := leaf_in k v in if b then Raise TypeError else Ok st
                 end
  end.
(** set_in_nested_dict, parameters.py:1612-1623 *)
Definition setn (st : store) (name : str) (w : val) : res store := setw st (VDict []) (py_split dot name) w.

(** parameters.py:1640-1657 (gather_interpolation_edges) *)
Definition gather (st : store) (items : list (str * pv)) : res (list str * list (str * str)) :=
  foldM (fun acc kv =>
    match snd kv with
    | PStr s =>
        foldM (fun acc n =>
          let* o := getn st n in
          let t := match o with Some v => vtruthy st v | None => false end in
          Ok (fst acc ++ fst kv :: (if t then [n] else []), snd acc ++ (if t then [(fst kv, n)] else [])))
          (refs (tokens s)) acc
    | _ => Ok acc
    end) items ([], []).
(** parameters.py:1665-1678 (get_backing_off_to_context) *)
Definition lookup (st : store) (ctx : pv) (n : str) : res val :=
  let* o := getn st n in
  let from_ctx := let* x := private_get ctx n false PNone in Ok (VLeaf x) in
  match o with
  | Some v => if vtruthy st v then Ok v else from_ctx
  | None => from_ctx
  end.
(** parameters.py:1690-1725: the new value of a str value *)
Definition compute (st : store) (ctx : pv) (s : str) : res val :=
  match tokens s with
  | [TRef n] => lookup st ctx n
  | ts => let* pieces := mapM (fun t => match t with
                                        | TChar c => Ok [c]
                                        | TRef n => let* v := lookup st ctx n in
                                                    match v with VLeaf (PStr x) => Ok x | _ => Raise ParameterError end
                                        end) ts in
          Ok (VLeaf (PStr (concat pieces)))
  end.
(** parameters.py:1680-1727: one round of the loop *)
Definition step (ctx : pv) (st : store) (name : str) : res store :=
  let* o := getn st name in
  match o with
  | Some v => if vtruthy st v then
                match v with
                | VLeaf (PStr s) => let* w := compute st ctx s in setn st name w
                | _ => Ok st
                end
              else Raise RuntimeError
  | None => Raise RuntimeError
  end.
(** Reading the dicts back as a tree; a dict that contains itself makes from_mapping recurse for
    ever, i.e. a RecursionError.  [None] is returned when the fuel is exhausted; with more fuel than
    there are dicts this means a cycle. *)
Fixpoint expand (fuel : nat) (st : store) (id : list str) : option data_t :=
  match fuel with
  | 0 => None
  | S f =>
      (fix go (l : list (str * val)) : option data_t :=
         match l with
         | [] => Some []
         | (k, VLeaf v) :: r => match go r with Some d => Some ((k, v) :: d) | None => None end
         | (k, VDict id') :: r =>
             match expand f st id' with
             | None => None
             | Some x => match go r with Some d => Some ((k, PMap x) :: d) | None => None end
             end
         end) (children st id)
  end.
(** parameters.py:1558-1731 (_interpolate) *)
Definition interpolate (p ctx : pv) : res pv :=
  match params_prefix p, params_prefix ctx with
  | [], [] =>
      let st0 := flatten [] (dictify p) in
      let* ne := gather st0 (namespaced_items p) in
      let* g := mk_digraph (list_eq_dec N.eq_dec) (fst ne) (snd ne) in
      match topological_sort (list_eq_dec N.eq_dec) (S (length (nodes g))) g with
      | None => Raise AnyError           (* not enough fuel; excluded by C39 *)
      | Some (_, Some e) => Raise e
      | Some (ys, None) =>
          let* st := foldM (step ctx) (rev ys) st0 in
          match expand (S (S (length st))) st [] with
          | None => Raise RecursionError
          | Some d => from_mapping (PMap d) []
          end
      end
  | _, _ => Raise ValueError
  end.
End Interp.
