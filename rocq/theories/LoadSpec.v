(** * Specification of loading parameter files with includes *)
From Verif Require Import Prelude PyStr Params ParamsSpec Interp InterpSpec Load.

(** Every key of the dict, and of the dicts directly nested in it, is a string. *)
Inductive string_keys : yaml -> Prop :=
| sk_leaf v : string_keys (YLeaf v)
| sk_list l : string_keys (YList l)
| sk_map m : (forall k v, In (k, v) m -> (exists s, k = KStr s) /\ string_keys v) -> string_keys (YMap m).
(** What YAML gives: dict keys are distinct, leaves are not dicts or Parameters. *)
Inductive yaml_wf : yaml -> Prop :=
| yw_leaf v : is_leaf v -> yaml_wf (YLeaf v)
| yw_list l : yaml_wf (YList l)
| yw_map m : NoDup (map fst m) -> (forall k v, In (k, v) m -> yaml_wf v) -> yaml_wf (YMap m).

(** Merging a sequence of parameter trees, later ones overriding earlier ones. *)
Definition merged (cs : list pv) (q : list str) : option found :=
  fold_left (fun old c => merge1 old (view c q)) cs None.

Section Spec.
Variable is_word : N -> bool.
Variable float_truthy : N -> bool.
Variable read : str -> res str.
Variable parse : str -> res yaml.
Variable resolve : str -> str -> res str.
Variable parent : str -> str.
Variable environ : list (str * str).

(** What a file's references may fall back to: everything loaded before, then the environment for
    names of which nothing was loaded. *)
Definition fallback (before : list pv) (q : list str) : option found :=
  match q with
  | [] => Some Namespace
  | k :: r => match merged before [k] with
              | Some _ => merged before q
              | None => match dfind environ k with Some v => view (PStr v) r | None => None end
              end
  end.
(** The file's own parameters: everything but the include list. *)
Definition own_parameters (raw : yaml) (own : data_t) : Prop :=
  plain (PMap own) /\
  forall q, view (PMap own) q = match q with
                                | k :: _ => if str_eqb k includes_key then None else view (to_pv raw) q
                                | [] => Some Namespace
                                end.
Definition include_list (raw : yaml) (incs : list str) : Prop :=
  exists m, to_pv raw = PMap m /\
    match dfind m includes_key with None => incs = [] | Some v => includes_of v = Ok incs end.

(** [Loads before base content after]: loading the text [content] (of a file in directory [base])
    when the contributions [before] are already loaded adds the contributions of the included
    files, in order, each loaded in the context of everything before it, and then the file's own
    interpolated parameters. *)
Inductive Loads : list pv -> option str -> str -> list pv -> Prop :=
| loads_file before base content raw incs mid own p ctx c :
    parse content = Ok raw -> (exists m, raw = YMap m) -> string_keys raw ->
    include_list raw incs -> Included before base incs mid ->
    own_parameters raw own -> from_mapping (PMap own) [] = Ok p ->
    wf_params ctx -> params_prefix ctx = [] -> (forall q, view ctx q = fallback mid q) ->
    interpolate is_word float_truthy p ctx = Ok c ->
    Loads before base content (mid ++ [c])
with Included : list pv -> option str -> list str -> list pv -> Prop :=
| included_none before base : Included before base [] before
| included_one before base f path text mid fs after :
    locate resolve base f = Ok path -> read path = Ok text ->
    Loads before (Some (parent path)) text mid -> Included mid base fs after ->
    Included before base (f :: fs) after.
End Spec.
