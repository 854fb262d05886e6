(** * Model of attrutils.py: attributes declared with its functions, and the objects of the classes made of them

    attrs (third party: attr.ib, attr.s, validators.instance_of) and immutablecollections are trusted to behave as described here; the
    comments say which parts.  Not modelled: frozen or slotted classes, assignments after construction, inheritance, kw_only attributes,
    __attrs_post_init__, the DeprecationWarnings, and callables that change the values passed to them (an iterator that "of" uses up). *)
From Verif Require Import Prelude PyStr Preconditions.

Section Attr.
(** Python values and classes; callables without arguments (factories), other converters and validators of the user's *)
Variables V C K U : Type.
Variable none : V.
Variable is_none : V -> bool.
Variable none_type : C.
(** isinstance(v, c) for a class c *)
Variable is_instance : V -> C -> bool.
(** issubclass(c, ImmutableCollection) *)
Variable is_immutable : C -> bool.
(** type_.of, type_.empty, type_.builder of immutablecollections *)
Variable of_ : C -> V -> res V.
Variable empty_ : C -> res V.
Variable builder : C -> K.
(** the user's own converters and validators *)
Variable user_convert : U -> V -> res V.
Variable user_validate : U -> V -> res unit.
(** What the n-th call of a factory anywhere in the program returns, if it is a call of k *)
Variable run : K -> nat -> res V.
(** msg % () of check_arg (preconditions.py:32-37) and str(type_) *)
Variable format : str -> res str.

(** What may be passed as type_: a class, a tuple of such things, or something else *)
Inductive tyarg := TClass (c : C) | TTuple (l : list tyarg) | TOther.
Variable type_str : tyarg -> str.
(** The builtin isinstance: a tuple is searched from the left, what is no class raises TypeError (used by attrs' instance_of; attrutils.py:19-23,
    33-39, 119-121) *)
Fixpoint isinstance (v : V) (t : tyarg) : res bool :=
  match t with
  | TClass c => Ok (is_instance v c)
  | TOther => Raise TypeError
  | TTuple l => (fix go (l : list tyarg) : res bool :=
                   match l with [] => Ok false | t :: r => let* b := isinstance v t in if b then Ok true else go r end) l
  end.

(** attr.ib's default: none at all, a value, a factory (attrutils.py:21, 37, 49, 82, 106) *)
Inductive dflt := NoDefault | Value (v : V) | Factory (k : K).
(** the converters: type_.of (attrutils.py:62), the partial application of _empty_immutable_if_none (:107), or a user's *)
Inductive converter := ConvOf (c : C) | ConvOpt (c : C) | ConvUser (u : U).
(** validators.instance_of(type_) (attrutils.py:22, 121), or a user's *)
Inductive validator := InstanceOf (t : tyarg) | ValidUser (u : U).
(** What attr.ib returns (attrutils.py:21, 37, 49, 62, 82, 106) *)
Record attribute := { a_default : dflt; a_validator : option validator; a_converter : option converter; a_init : bool }.
(** Keyword arguments of attr.ib (attrutils.py:21, 37, 49, 62, 82, 106): those that matter for constructing objects *)
Record kwargs := { k_default : option dflt; k_validator : option validator; k_converter : option converter; k_factory : option K; k_init : option bool }.
(** No keyword arguments (attrutils.py:19-111) *)
Definition no_kwargs : kwargs := {| k_default := None; k_validator := None; k_converter := None; k_factory := None; k_init := None |}.
(** The further arguments *args (at most two: attr.ib's default and validator) and **kwargs of attrutils' functions (attrutils.py:19, 34, 47, 58, 73, 95) *)
Record extra := { x_first : option dflt; x_second : option validator; x_kw : kwargs }.
(** none of them (attrutils.py:19-111) *)
Definition no_extra : extra := {| x_first := None; x_second := None; x_kw := no_kwargs |}.

(** A keyword given twice, or given by position and by keyword, is a TypeError (Python; attrutils.py:21-111) *)
Definition once {A} (a b : option A) : res (option A) :=
  match a, b with Some _, Some _ => Raise TypeError | Some x, None => Ok (Some x) | None, y => Ok y end.
(** attr.ib (trusted; attrutils.py:21, 37, 49, 62, 82, 106): default and factory exclude each other *)
Definition attrib (first : option dflt) (second : option validator) (kw : kwargs) : res attribute :=
  let* d := once first (k_default kw) in
  let* v := once second (k_validator kw) in
  let* d := match k_factory kw, d with
            | Some k, (None | Some NoDefault) => Ok (Factory k)
            | Some _, Some _ => Raise ValueError
            | None, Some d => Ok d
            | None, None => Ok NoDefault
            end in
  Ok {| a_default := d; a_validator := v; a_converter := k_converter kw; a_init := match k_init kw with Some b => b | None => true end |}.
(** attrib(own keywords, *args, **kwargs) (attrutils.py:21-23, 37-39, 49, 62, 82-84, 106-111) *)
Definition with_own (own : kwargs) (x : extra) : res attribute :=
  let kw := x_kw x in
  let* d := once (k_default own) (k_default kw) in
  let* v := once (k_validator own) (k_validator kw) in
  let* c := once (k_converter own) (k_converter kw) in
  let* i := once (k_init own) (k_init kw) in
  attrib (x_first x) (x_second x) {| k_default := d; k_validator := v; k_converter := c; k_factory := k_factory kw; k_init := i |}.

(** attrutils.py:19-23 *)
Definition attrib_instance_of (t : tyarg) (x : extra) : res attribute :=
  with_own {| k_default := None; k_validator := Some (InstanceOf t); k_converter := None; k_factory := None; k_init := None |} x.
(** attrutils.py:119-121 *)
Definition opt_instance_of (t : tyarg) : validator := InstanceOf (TTuple [t; TClass none_type]).
(** attrutils.py:33-39; [default] is the keyword argument of that name *)
Definition attrib_opt_instance_of (t : tyarg) (default : V) (x : extra) : res attribute :=
  with_own {| k_default := Some (Value default); k_validator := Some (opt_instance_of t); k_converter := None; k_factory := None; k_init := None |} x.
(** attrutils.py:47-49 *)
Definition attrib_factory (k : K) (x : extra) : res attribute :=
  with_own {| k_default := Some (Factory k); k_validator := None; k_converter := None; k_factory := None; k_init := None |} x.
(** attrutils.py:124-128: issubclass needs a class, check_arg raises ValueError (preconditions.py:32-37) *)
Definition check_immutable_collection (t : tyarg) : res C :=
  match t with
  | TClass c => let* _ := check_arg format (is_immutable c) (Some (!!"Type " ++ type_str t ++ !!" is not an immutable collection")) in Ok c
  | _ => Raise TypeError
  end.
(** attrutils.py:57-62 *)
Definition attrib_immutable (t : tyarg) (x : extra) : res attribute :=
  let* c := check_immutable_collection t in
  with_own {| k_default := None; k_validator := None; k_converter := Some (ConvOf c); k_factory := None; k_init := None |} x.
(** attrutils.py:72-84 *)
Definition attrib_private_immutable_builder (t : tyarg) (x : extra) : res attribute :=
  let* c := check_immutable_collection t in
  with_own {| k_default := Some (Factory (builder c)); k_validator := None; k_converter := None; k_factory := None; k_init := Some false |} x.
(** attrutils.py:94-111; the default is made when the attribute is declared *)
Definition attrib_opt_immutable (t : tyarg) (x : extra) : res attribute :=
  let* c := check_immutable_collection t in
  let* e := empty_ c in
  with_own {| k_default := Some (Value e); k_validator := None; k_converter := Some (ConvOpt c); k_factory := None; k_init := None |} x.

(** attrutils.py:131-137 *)
Definition empty_immutable_if_none (c : C) (v : V) : res V := if is_none v then empty_ c else of_ c v.
(** applying a converter (attrutils.py:57-62, 106-111) *)
Definition convert (o : option converter) (v : V) : res V :=
  match o with
  | None => Ok v
  | Some (ConvOf c) => of_ c v
  | Some (ConvOpt c) => empty_immutable_if_none c v
  | Some (ConvUser u) => user_convert u v
  end.
(** running a validator (attrutils.py:19-23, 33-39) *)
Definition validate (o : option validator) (v : V) : res unit :=
  match o with
  | None => Ok tt
  | Some (InstanceOf t) => let* b := isinstance v t in if b then Ok tt else Raise TypeError
  | Some (ValidUser u) => user_validate u v
  end.

(** ** Classes and constructor calls (attrs, trusted; the users of attrutils.py:13-111) *)
(** name.lstrip("_"): the constructor's name for an attribute *)
Fixpoint param_name (name : str) : str := match name with c :: r => if (c =? 95)%N then param_name r else name | [] => [] end.
(** the attributes that are arguments of the constructor, and their names *)
Definition init_fields (fields : list (str * attribute)) := filter (fun f => a_init (snd f)) fields.
(** as above *)
Definition params (fields : list (str * attribute)) : list str := map (fun f => param_name (fst f)) (init_fields fields).
(** no default *)
Definition mandatory (a : attribute) : bool := match a_default a with NoDefault => true | _ => false end.
(** no mandatory attribute after one with a default *)
Fixpoint defaults_last (l : list (str * attribute)) : bool :=
  match l with
  | [] => true
  | (_, a) :: r => (mandatory a || forallb (fun f => negb (mandatory (snd f))) r) && defaults_last r
  end.
(** the same name twice *)
Fixpoint twice (l : list str) : bool := match l with [] => false | x :: r => existsb (str_eqb x) r || twice r end.
(** the class decorator: ValueError for the wrong order of defaults, SyntaxError for two constructor arguments with one name *)
Definition define_class (fields : list (str * attribute)) : res (list (str * attribute)) :=
  if negb (defaults_last (init_fields fields)) then Raise ValueError
  else if twice (params fields) then Raise AnyError
  else Ok fields.
(** keyword arguments: lookup and removal *)
Fixpoint kget (kws : list (str * V)) (p : str) : option V := match kws with [] => None | (k, v) :: r => if str_eqb k p then Some v else kget r p end.
(** as above *)
Definition kdel (kws : list (str * V)) (p : str) : list (str * V) := filter (fun kv => negb (str_eqb (fst kv) p)) kws.
(** Python's binding of positional and keyword arguments to parameters; [None]: not given *)
Fixpoint bind_args (ps : list str) (pos : list V) (kws : list (str * V)) : res (list (option V)) :=
  match ps with
  | [] => match pos, kws with [], [] => Ok [] | _, _ => Raise TypeError end
  | p :: r =>
      match pos with
      | v :: pos' => match kget kws p with Some _ => Raise TypeError | None => let* l := bind_args r pos' kws in Ok (Some v :: l) end
      | [] => let* l := bind_args r [] (kdel kws p) in Ok (kget kws p :: l)
      end
  end.
(** a mandatory argument is missing *)
Fixpoint lacks (fields : list (str * attribute)) (given : list (option V)) : bool :=
  match fields, given with (_, a) :: r, g :: gs => (mandatory a && match g with None => true | Some _ => false end) || lacks r gs | _, _ => false end.
(** the first half of the generated __init__: attribute by attribute, the argument or the default, converted; [n] counts factory calls *)
Fixpoint fill (fields : list (str * attribute)) (given : list (option V)) (n : nat) : res (list (str * V)) * nat :=
  match fields with
  | [] => (Ok [], n)
  | (name, a) :: r =>
      let (g, gs) := if a_init a then match given with g :: gs => (g, gs) | [] => (None, []) end else (None, given) in
      let continue (v : res V) (n : nat) :=
        match (let* v := v in convert (a_converter a) v) with
        | Raise e => (Raise e, n)
        | Ok v => let (l, n') := fill r gs n in (let* l := l in Ok ((name, v) :: l), n')
        end in
      match g, a_default a with
      | Some v, _ => continue (Ok v) n
      | None, Value d => continue (Ok d) n
      | None, Factory k => continue (run k n) (S n)
      | None, NoDefault => fill r gs n
      end
  end.
(** the second half: the validators, in order, on the values stored *)
Fixpoint validate_all (fields : list (str * attribute)) (obj : list (str * V)) : res unit :=
  match fields with
  | [] => Ok tt
  | (name, a) :: r =>
      let* _ := match kget obj name with Some v => validate (a_validator a) v | None => Ok tt end in
      validate_all r obj
  end.
(** Calling the class; also returns the number of factory calls so far *)
Definition construct (fields : list (str * attribute)) (pos : list V) (kws : list (str * V)) (n : nat) : res (list (str * V)) * nat :=
  match bind_args (params fields) pos kws with
  | Raise e => (Raise e, n)
  | Ok given =>
      if lacks (init_fields fields) given then (Raise TypeError, n)
      else match fill fields given n with
           | (Raise e, n') => (Raise e, n')
           | (Ok obj, n') => (let* _ := validate_all fields obj in Ok obj, n')
           end
  end.
(** A program: constructor calls of any classes, one after the other; errors are caught *)
Fixpoint history (calls : list (list (str * attribute) * list V * list (str * V))) (n : nat) : list (res (list (str * V))) * nat :=
  match calls with
  | [] => ([], n)
  | (fields, pos, kws) :: r => let (o, n1) := construct fields pos kws n in let (os, n2) := history r n1 in (o :: os, n2)
  end.
End Attr.
