(** * Specification vocabulary for Parameters (independent of the code's functions)

    A nested configuration is a tree.  [view t q] says what is found at the path [q]: nothing, a
    namespace, or a leaf value.  It reads plain dicts and Parameters objects alike. *)
From Verif Require Import Prelude PyStr Params.

Inductive found : Type := Namespace | Leaf (v : pv).
Fixpoint view (t : pv) (q : list str) : option found :=
  match q with
  | [] => Some (match t with PMap _ | PParams _ _ => Namespace | v => Leaf v end)
  | k :: q' =>
      match t with
      | PMap d | PParams _ d => match dfind d k with Some x => view x q' | None => None end
      | _ => None
      end
  end.

(** Keys of a dict. *)
Definition keys {A} (d : list (str * A)) : list str := map fst d.
Definition dotless (k : str) : Prop := ~ In dot k.

(** A plain nested dict: every value is a leaf or again a plain nested dict; dict keys are distinct
    (they always are in Python). *)
Fixpoint plain (t : pv) : Prop :=
  match t with
  | PMap m => NoDup (keys m) /\
              (fix all (m : data_t) : Prop := match m with [] => True | (_, x) :: r => plain x /\ all r end) m
  | PParams _ _ => False
  | _ => True
  end.
(** [k] is a key of the dict [t] or of a dict nested in it. *)
Inductive nested_key : pv -> str -> Prop :=
| nk_here m k x : In (k, x) m -> nested_key (PMap m) k
| nk_there m k x k' : In (k, x) m -> nested_key x k' -> nested_key (PMap m) k'.

(** A well-formed Parameters object, as every public way of making one produces: distinct keys
    without dots, and the values are leaves (not dicts) or well-formed Parameters. *)
Fixpoint wf (t : pv) : Prop :=
  match t with
  | PParams _ d => NoDup (keys d) /\ Forall dotless (keys d) /\
                   (fix all (m : data_t) : Prop := match m with [] => True | (_, x) :: r => wf x /\ all r end) d
  | PMap _ => False
  | _ => True
  end.
Definition wf_params (t : pv) : Prop := wf t /\ is_params t = true.

(** The dotted paths and values of all leaves, in order. *)
Fixpoint leaves (t : pv) : list (list str * pv) :=
  match t with
  | PMap m | PParams _ m =>
      flat_map (fun kv => map (fun e => (fst kv :: fst e, snd e)) (leaves (snd kv))) m
  | v => [([], v)]
  end.
Definition dotted (q : list str) : str := py_join [dot] q.

(** The tree without its empty namespaces (removed bottom-up). *)
Definition is_empty_map (t : pv) : bool := match t with PMap [] => true | _ => false end.
Fixpoint prune (t : pv) : pv :=
  match t with
  | PMap m => PMap (filter (fun kv => negb (is_empty_map (snd kv)))
                           (map (fun kv => (fst kv, prune (snd kv))) m))
  | v => v
  end.

Definition prefix_of {A} (p q : list A) : Prop := exists r, q = p ++ r.
Definition proper_prefix {A} (p q : list A) : Prop := exists x r, q = p ++ x :: r.

(** Right-biased merge of what two trees have at one path; an explicit null does not override. *)
Definition merge1 (old new : option found) : option found :=
  match new with
  | Some (Leaf PNone) => match old with None => new | Some _ => old end
  | Some x => Some x
  | None => old
  end.
(** At [q] one side has a parameter and the other a namespace (a null parameter in [new] does not
    count). *)
Definition clash (old new : pv) (q : list str) : Prop :=
  (exists v, view old q = Some (Leaf v) /\ view new q = Some Namespace) \/
  (exists v, view old q = Some Namespace /\ view new q = Some (Leaf v) /\ v <> PNone).

(** What a sequence of (path, value) assignments leaves at the path [q]: the latest assignment that
    touches [q] decides.  [es] lists the assignments latest first. *)
Fixpoint is_prefix (p q : list str) : bool :=
  match p, q with
  | [], _ => true
  | a :: p', b :: q' => str_eqb a b && is_prefix p' q'
  | _, _ => false
  end.
Fixpoint decided (es : list (list str * pv)) (q : list str) : option found :=
  match es with
  | [] => match q with [] => Some Namespace | _ => None end
  | (p, v) :: r =>
      if is_prefix p q then (if is_prefix q p then Some (Leaf v) else None)
      else if is_prefix q p then Some Namespace
      else decided r q
  end.
(** No assignment goes below a path that was assigned a value earlier. *)
Definition no_extension (es : list (list str * pv)) : Prop :=
  forall l1 p v l2 q w l3, es = l1 ++ (p, v) :: l2 ++ (q, w) :: l3 -> ~ proper_prefix p q.
Definition is_leaf (v : pv) : Prop := match v with PMap _ | PParams _ _ => False | _ => True end.

(** ** Lookups *)
(** Descending through namespaces along a path arrives at a value (possibly a namespace). *)
Inductive reaches : pv -> list str -> pv -> Prop :=
| reach_here v : reaches v [] v
| reach_down pre d k x q v : In (k, x) d -> reaches x q v -> reaches (PParams pre d) (k :: q) v.
(** The parameter called [name] (dots separate namespaces) is stored with value [v] / is missing. *)
Definition Stored (p : pv) (name : str) (v : pv) : Prop := reaches p (py_split dot name) v.
Definition Absent (p : pv) (name : str) : Prop := forall v, ~ Stored p name v.
(** The value a getter with a default works on. *)
Inductive Candidate (p : pv) (name : str) (default : pv) : pv -> Prop :=
| cand_stored v : Stored p name v -> Candidate p name default v
| cand_default : Absent p name -> default <> PNone -> Candidate p name default default.

(** ** What the YAML writer accepts *)
Inductive writable : pv -> Prop :=
| w_str s : writable (PStr s)
| w_int z : writable (PInt z)
| w_bool b : writable (PBool b)
| w_float f : writable (PFloat f)
| w_path s : writable (PPath s)
| w_list l : (forall x, In x l -> writable x) -> writable (PList l)
| w_map m : (forall k x, In (k, x) m -> writable x) -> writable (PMap m).
(** A namespace is printable when all the values in it can be written. *)
Inductive printable : pv -> Prop :=
| pr_ns pre d : (forall k x, In (k, x) d -> printable x) -> printable (PParams pre d)
| pr_leaf v : is_params v = false -> writable v -> printable v.
(** The exception a getter raises for a stored value of the wrong type: a ParameterError, unless
    the value is a namespace that cannot be printed into the error message. *)
Inductive wrong_type (v : pv) : exn -> Prop :=
| wt_param : (is_params v = true -> printable v) -> wrong_type v ParameterError
| wt_runtime : is_params v = true -> ~ printable v -> wrong_type v RuntimeError.
