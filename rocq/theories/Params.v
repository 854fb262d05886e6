(** * Model of vistautils/parameters.py: Parameters *)
From Verif Require Import Prelude PyStr Order Range.

(** Python values that occur as parameter values.  Floats are opaque (only their truth value and
    membership in a range matter, both are universally quantified parameters below); [PMap] is a
    dict, [PParams] a Parameters object (namespace_prefix, _data).  Dict keys are str and
    distinct, in insertion order. *)
Inductive pv : Type :=
| PNone | PBool (b : bool) | PInt (z : Z) | PFloat (f : N) | PStr (s : str)
| PPath (s : str) | PBytes (s : list N) | PList (l : list pv)
| PMap (m : list (str * pv)) | PParams (prefix : list str) (data : list (str * pv))
| POther (tag : N).
(** an immutabledict: its items in insertion order (parameters.py:73) *)
Definition data_t := list (str * pv).

(** dict lookup, item assignment *)
Fixpoint dfind {A} (d : list (str * A)) (k : str) : option A :=
  match d with [] => None | (k', v) :: r => if str_eqb k' k then Some v else dfind r k end.
(** d[k] = v on a dict *)
Fixpoint dput {A} (d : list (str * A)) (k : str) (v : A) : list (str * A) :=
  match d with [] => [(k, v)] | (k', v') :: r => if str_eqb k' k then (k', v) :: r else (k', v') :: dput r k v end.

(** the separator (parameters.py:1272-1336) *)
Definition dot : N := 46%N.
(** '"." in key' (parameters.py:76-87) *)
Definition has_dot (k : str) : bool := existsb (N.eqb dot) k.
(** isinstance(v, Parameters) *)
Definition is_params (v : pv) : bool := match v with PParams _ _ => true | _ => false end.
(** v is None *)
Definition is_none (v : pv) : bool := match v with PNone => true | _ => false end.

(** parameters.py:76-87 (constructor, __attrs_post_init__) *)
Definition mk_params (prefix : list str) (d : data_t) : res pv :=
  if existsb (fun kv => has_dot (fst kv)) d then Raise ValueError else Ok (PParams prefix d).

(** parameters.py:99-125 (from_mapping); a value that is not a dict is kept. *)
Fixpoint from_value (prefix : list str) (v : pv) : res pv :=
  match v with
  | PMap m =>
      let* d := (fix go (m : data_t) : res data_t :=
                   match m with
                   | [] => Ok []
                   | (k, x) :: r => let* x' := from_value (prefix ++ [k]) x in
                                    let* r' := go r in Ok ((k, x') :: r')
                   end) m in
      mk_params prefix d
  | _ => Ok v
  end.
(** parameters.py:99-125 *)
Definition from_mapping (v : pv) (prefix : list str) : res pv :=
  match v with PMap _ => from_value prefix v | _ => Raise TypeError end.
(** parameters.py:89-97 *)
Definition empty_params (prefix : list str) : res pv := from_mapping (PMap []) prefix.

(** parameters.py:127-151 (from_key_value_pairs); the separator is one character.  The dicts
    built are private to the call unless the caller passes a dict as a value (then the code
    mutates it; sharing is modelled in Heap.v).  Indexing into a value that is not a dict is a
    TypeError. *)
Fixpoint insert_path (d : data_t) (parts : list str) (v : pv) : res data_t :=
  match parts with
  | [] => Ok d
  | [k] => Ok (dput d k v)
  | k :: rest =>
      match dfind d k with
      | None => let* sub := insert_path [] rest v in Ok (dput d k (PMap sub))
      | Some (PMap sub) => let* sub' := insert_path sub rest v in Ok (dput d k (PMap sub'))
      | Some _ => Raise TypeError
      end
  end.
(** parameters.py:127-151 *)
Definition from_key_value_pairs (kvs : list (str * pv)) (sep : N) : res pv :=
  let* d := foldM (fun d kv => match fst kv with
                               | [] => Raise RuntimeError
                               | _ => insert_path d (py_split sep (fst kv)) (snd kv)
                               end) kvs [] in
  from_mapping (PMap d) [].

(** parameters.py:153-169 (as_nested_dicts) *)
Fixpoint dictify (v : pv) : pv :=
  match v with
  | PParams _ d => PMap (map (fun kv => (fst kv, dictify (snd kv))) d)
  | _ => v
  end.

(** parameters.py:171-186 (namespaced_items) *)
Fixpoint namespaced_items (v : pv) : list (str * pv) :=
  match v with
  | PParams prefix d =>
      flat_map (fun kv =>
        match snd kv with
        | PParams _ _ => namespaced_items (snd kv)
        | x => [(py_join [dot] prefix ++ (match prefix with [] => [] | _ => [dot] end) ++ fst kv, x)]
        end) d
  | _ => []
  end.

(** parameters.py:1272-1337 (_private_get).  [default = PNone] is "no default". *)
Fixpoint walk (cur : pv) (comps : list str) : option pv :=
  match comps with
  | [] => Some cur
  | c :: r => match cur with
              | PParams _ d => match dfind d c with Some v => walk v r | None => None end
              | _ => None
              end
  end.
(** parameters.py:1272-1336 *)
Definition private_get (p : pv) (name : str) (optional : bool) (default : pv) : res pv :=
  match walk p (py_split dot name) with
  | Some v => Ok v
  | None => if negb (is_none default) then Ok default
            else if optional then Ok PNone else Raise ParameterError
  end.
(** parameters.py:522-523 ([in]) *)
Definition contains (p : pv) (name : str) : bool :=
  match private_get p name true PNone with Ok v => negb (is_none v) | Raise _ => false end.

(** parameters.py:188-242 (unify), on two Parameters objects *)
Fixpoint unify (a b : pv) (prefix : list str) {struct a} : res pv :=
  match a, b with
  | PParams pa da, PParams pb db =>
      let* r1 := (fix go (l : data_t) : res data_t :=
        match l with
        | [] => Ok []
        | (k, old) :: r =>
            let* x := if contains b k then
                        match dfind db k with
                        | None => Raise KeyError
                        | Some new =>
                            if negb (Bool.eqb (is_params old) (is_params new)) then Raise IOError
                            else if is_params old then unify old new (prefix ++ [k])
                            else Ok new
                        end
                      else Ok old in
            let* r' := go r in Ok ((k, x) :: r')
        end) da in
      let ret := fold_left (fun ret kv => if contains a (fst kv) then ret else dput ret (fst kv) (snd kv)) db r1 in
      from_mapping (PMap ret) prefix
  | _, _ => Raise AttributeError
  end.
(** parameters.py:211-212: a plain mapping is first converted *)
Definition unify_with (a : pv) (b : pv) (prefix : list str) : res pv :=
  let* b' := if is_params b then Ok b else from_mapping b [] in unify a b' prefix.

(** parameters.py:1753-1779 (YAMLParametersWriter._preprocess_dicts) *)
Fixpoint preprocess (v : pv) : res pv :=
  match v with
  | PPath s => Ok (PStr s)
  | PMap m => let* m' := (fix go (m : data_t) : res data_t :=
                            match m with
                            | [] => Ok []
                            | (k, x) :: r => let* x' := preprocess x in let* r' := go r in Ok ((k, x') :: r')
                            end) m in Ok (PMap m')
  | PStr _ | PInt _ | PBool _ | PFloat _ => Ok v
  | PBytes _ => Raise RuntimeError
  | PList l => let* l' := (fix go (l : list pv) : res (list pv) :=
                            match l with
                            | [] => Ok []
                            | x :: r => let* x' := preprocess x in let* r' := go r in Ok (x' :: r')
                            end) l in Ok (PList l')
  | PNone | PParams _ _ | POther _ => Raise RuntimeError
  end.
(** parameters.py:1339-1342 (str(params)): succeeds when the writer does (yaml.dump of plain data
    is trusted not to fail).  Formatting the value into an error message can therefore replace
    the intended exception. *)
Definition raise_mentioning (v : pv) (e : exn) : exn :=
  match v with
  | PParams _ _ => match preprocess (dictify v) with Raise e' => e' | Ok _ => e end
  | _ => e
  end.

(** isinstance checks *)
Definition is_str (v : pv) : bool := match v with PStr _ => true | _ => false end.
(** isinstance(v, int): bool is a subclass of int *)
Definition is_int (v : pv) : bool := match v with PInt _ | PBool _ => true | _ => false end.
(** isinstance(v, float) *)
Definition is_float (v : pv) : bool := match v with PFloat _ => true | _ => false end.
(** isinstance(v, bool) *)
Definition is_bool (v : pv) : bool := match v with PBool _ => true | _ => false end.
(** isinstance(v, list) *)
Definition is_list (v : pv) : bool := match v with PList _ => true | _ => false end.
(** isinstance(v, object) *)
Definition is_object (v : pv) : bool := true.

(** parameters.py:1087-1109 (get) *)
Definition get (p : pv) (name : str) (ty : pv -> bool) (default : pv) : res pv :=
  let* ret := private_get p name false default in
  if ty ret then Ok ret else Raise (raise_mentioning ret ParameterError).
(** parameters.py:1123-1148 (get_optional) *)
Definition get_optional (p : pv) (name : str) (ty : pv -> bool) (default : pv) : res pv :=
  let* ret := private_get p name true PNone in
  if is_none ret then Ok default
  else if ty ret then Ok ret else Raise (raise_mentioning ret ParameterError).
(** parameters.py:466-483 (string); [valid_options] is a list *)
Definition string_ (p : pv) (name : str) (valid : option (list str)) (default : pv) : res pv :=
  let* ret := get p name is_str default in
  match valid, ret with
  | Some l, PStr s => if existsb (str_eqb s) l then Ok ret else Raise ParameterError
  | _, _ => Ok ret
  end.
(** parameters.py:501-520 (optional_string) *)
Definition optional_string (p : pv) (name : str) (valid : option (list str)) (default : pv) : res pv :=
  if contains p name then string_ p name valid PNone else Ok default.
(** parameters.py:439-464 (enum): [members] are the names in enum_class.__members__; the member
    called s is represented by [enum_member s] (an injective code).  [default] is a member's name
    or None; [truthy] is bool() of members (True unless the enum class overrides it, e.g. an
    IntEnum member with value 0). *)
Definition enum_member (s : str) : pv := POther (fold_left (fun a c => a * 2097152 + c + 1)%N s 0%N).
(** parameters.py:439-464 *)
Definition enum (truthy : str -> bool) (p : pv) (name : str) (members : list str) (default : option str) : res pv :=
  let* n := optional_string p name None PNone in
  match n with
  | PStr s => if existsb (str_eqb s) members then Ok (enum_member s) else Raise ParameterError
  | _ => match default with
         | Some d => if truthy d then Ok (enum_member d) else string_ p name None PNone
         | None => string_ p name None PNone
         end
  end.
(** parameters.py:525-529 (namespace), 531-537 (has_namespace) *)
Definition namespace (p : pv) (name : str) : res pv := get p name is_params PNone.
(** parameters.py:531-537 *)
Definition has_namespace (p : pv) (name : str) : bool :=
  match private_get p name true PNone with Ok v => is_params v | Raise _ => false end.
(** int value of an int object (True is 1) *)
Definition int_of (v : pv) : Z := match v with PInt z => z | PBool b => if b then 1%Z else 0%Z | _ => 0%Z end.
(** parameters.py:539-554 (integer) *)
Definition integer (p : pv) (name : str) (default : pv) (valid_range : range Z) : res pv :=
  let* ret := get p name is_int default in
  if Range.contains valid_range (int_of ret) then Ok ret else Raise ParameterError.
(** parameters.py:564-576 (optional_integer) *)
Definition optional_integer (p : pv) (name : str) (default : pv) : res pv :=
  if contains p name then integer p name PNone (MkRange BelowAll AboveAll) else Ok default.
(** parameters.py:578-593 (positive_integer) *)
Definition positive_integer (p : pv) (name : str) (default : pv) : res pv :=
  let* ret := integer p name default (MkRange BelowAll AboveAll) in
  if (int_of ret >? 0)%Z then Ok ret else Raise ParameterError.
(** parameters.py:602-619 (optional_positive_integer); [default] is an int or None *)
Definition optional_positive_integer (p : pv) (name : str) (default : pv) : res pv :=
  if contains p name then positive_integer p name PNone
  else if is_int default && negb (int_of default =? 0)%Z
       then if (int_of default >? 0)%Z then Ok default else Raise ParameterError
       else Ok PNone.
Section Floats.
Variable float_truthy : N -> bool.       (* bool(f): False exactly for 0.0 and -0.0 *)
(** parameters.py:621-642 (floating_point); a valid_range is a set of floats *)
Definition floating_point (p : pv) (name : str) (valid_range : option (N -> bool)) (default : pv) : res pv :=
  let* ret := get p name is_float default in
  match valid_range, ret with
  | Some r, PFloat f => if r f then Ok ret else Raise ParameterError
  | _, _ => Ok ret
  end.
(** parameters.py:656-684 (optional_floating_point); [default] is a float or None *)
Definition optional_floating_point (p : pv) (name : str) (valid_range : option (N -> bool)) (default : pv) : res pv :=
  if contains p name then floating_point p name valid_range PNone
  else match default with
       | PFloat f => if float_truthy f
                     then match valid_range with
                          | Some r => if r f then Ok default else Raise ParameterError
                          | None => Ok default
                          end
                     else Ok PNone
       | _ => Ok PNone
       end.
End Floats.
(** parameters.py:696-700 (boolean), 710-719 (optional_boolean) *)
Definition boolean (p : pv) (name : str) (default : pv) : res pv := get p name is_bool default.
(** parameters.py:710-719 *)
Definition optional_boolean (p : pv) (name : str) (default : pv) : res pv := get_optional p name is_bool default.
(** parameters.py:739-751 (optional_namespace) *)
Definition optional_namespace (p : pv) (name : str) : res pv :=
  let* ret := get_optional p name is_object PNone in
  Ok (if is_params ret then ret else PNone).
(** parameters.py:753-772 (namespace_or_empty) *)
Definition params_prefix (p : pv) : list str := match p with PParams pre _ => pre | _ => [] end.
(** parameters.py:753-772 *)
Definition namespace_or_empty (p : pv) (name : str) : res pv :=
  let* ret := get_optional p name is_object PNone in
  if is_params ret then Ok ret
  else if is_none ret then empty_params (params_prefix p ++ [name])
  else Raise ParameterError.
(** parameters.py:774-778 (arbitrary_list), 788-804 (optional_arbitrary_list) *)
Definition arbitrary_list (p : pv) (name : str) (default : pv) : res pv := get p name is_list default.
(** parameters.py:786-804 *)
Definition optional_arbitrary_list (p : pv) (name : str) (default : option (list pv)) : res pv :=
  match default with
  | None | Some [] => get_optional p name is_list PNone
  | Some l => get_optional p name is_list (PList l)
  end.
(** parameters.py:1150-1162 (assert_exactly_one_present) *)
Definition assert_exactly_one_present (p : pv) (names : list str) : res unit :=
  match filter (contains p) names with
  | [] => Raise ParameterError
  | [_] => Ok tt
  | _ => Raise ParameterError
  end.
(** hash(v) succeeds.  A Parameters object is a frozen attrs class (parameters.py:55-81): its hash is made from the hashes of namespace_prefix and of
    _data, and the hash of an immutabledict (library) from those of its items; lists and dicts have none.  Objects we know nothing about are taken to have one. *)
Fixpoint hashable (v : pv) : bool :=
  match v with
  | PList _ | PMap _ => false
  | PParams _ d => forallb (fun kv => hashable (snd kv)) d
  | _ => true
  end.
(** dict == dict (also that of immutabledicts, trusted): as many keys, and every key of one has an equal value in the other; the order does not matter *)
Definition dict_eq (eq : pv -> pv -> bool) (a b : data_t) : bool :=
  (length a =? length b)%nat && forallb (fun kv => match dfind b (fst kv) with Some y => eq (snd kv) y | None => false end) a.
(** a == b.  [oeq] answers when a float or an object we know nothing about takes part.  Parameters objects (attrs, parameters.py:55-81) are equal when namespace_prefix and _data are; True is 1.
    (That containers take identical objects to be equal without asking them is not modelled.) *)
Fixpoint peq (oeq : pv -> pv -> bool) (a b : pv) {struct a} : bool :=
  match a, b with
  | PFloat _, _ | POther _, _ | _, PFloat _ | _, POther _ => oeq a b
  | PNone, PNone => true
  | (PBool _ | PInt _), (PBool _ | PInt _) => (int_of a =? int_of b)%Z
  | PStr s, PStr t => str_eqb s t
  | PPath s, PPath t => str_eqb s t
  | PBytes s, PBytes t => str_eqb s t
  | PList l, PList m => (fix go (l m : list pv) : bool := match l, m with
                           | [], [] => true
                           | x :: l', y :: m' => peq oeq x y && go l' m'
                           | _, _ => false
                           end) l m
  | PMap d, PMap d' => dict_eq (peq oeq) d d'
  | PParams p d, PParams p' d' => (if list_eq_dec (list_eq_dec N.eq_dec) p p' then true else false) && dict_eq (peq oeq) d d'
  | _, _ => false
  end.
(** immutableset (library): the first of equal items, in order *)
Fixpoint first_of_equal (eq : pv -> pv -> bool) (kept l : list pv) : list pv :=
  match l with [] => kept | x :: r => first_of_equal eq (if existsb (fun y => eq y x) kept then kept else kept ++ [x]) r end.
(** parameters.py:1164-1172 (sub_namespaces): immutableset (library) hashes every item and drops those equal to an earlier one *)
Definition sub_namespaces (oeq : pv -> pv -> bool) (p : pv) : res (list pv) :=
  match p with
  | PParams _ d => let* l := mapM (fun k => namespace p k) (filter (has_namespace p) (map fst d)) in
                   if forallb hashable l then Ok (first_of_equal (peq oeq) [] l) else Raise TypeError
  | _ => Raise AttributeError
  end.
