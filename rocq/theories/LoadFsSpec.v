(** * Specification of loading parameter files from a file system *)
From Verif Require Import Prelude PyStr TextLib Utf8 Params ParamsSpec Interp InterpSpec Load LoadSpec Fs.
From Verif Require Export OsPathSpec.
Require Import Relations.

(** The text of the file at [q]: its bytes are the UTF-8 encoding of a text, read with all line ends turned into "\n". *)
Definition text_at (fs : list (list str * fnode)) (q : list str) (t : str) : Prop :=
  exists b u, look fs q = Some (KFile b) /\ encode u = Ok b /\ t = universal_newlines u.

(** Following the components of a path, each of which exists; "x/.." leads back whatever x is. *)
Inductive resolves (fs : list (list str * fnode)) : list str -> list str -> list str -> Prop :=
| rs_end q : resolves fs q [] q
| rs_stay q c cs q' : c = [] \/ c = !!"." -> resolves fs q cs q' -> resolves fs q (c :: cs) q'
| rs_up q cs q' : resolves fs (tl q) cs q' -> resolves fs q (!!".." :: cs) q'
| rs_into q c cs q' : c <> [] -> c <> !!"." -> c <> !!".." -> look fs (c :: q) <> None -> resolves fs (c :: q) cs q' -> resolves fs q (c :: cs) q'.

(** The include [f] in a file of directory [dir] (None: in a string) is the file at [q]. *)
Definition points (fs : list (list str * fnode)) (dir : option (list str)) (f : str) (q : list str) : Prop :=
  ~ In 0%N f /\ ((exists r, f = slash :: r) /\ opens fs [] (py_split slash f) q \/ (forall r, f <> slash :: r) /\ exists d, dir = Some d /\ resolves fs d (py_split slash f) q).

Section Spec.
Variable fs : list (list str * fnode).
Variable is_word : N -> bool.
Variable float_truthy : N -> bool.
Variable parse : str -> res yaml.
Variable environ : list (str * str).
(** As [LoadSpec.Loads], with places in the file system for paths: the directory of a file is that of its place. *)
Inductive LoadsAt : list pv -> option (list str) -> str -> list pv -> Prop :=
| loads_at before dir content raw incs mid own p ctx c :
    parse content = Ok raw -> (exists m, raw = YMap m) -> string_keys raw ->
    include_list raw incs -> IncludedAt before dir incs mid ->
    own_parameters raw own -> from_mapping (PMap own) [] = Ok p ->
    wf_params ctx -> params_prefix ctx = [] -> (forall q, view ctx q = fallback environ mid q) ->
    interpolate is_word float_truthy p ctx = Ok c ->
    LoadsAt before dir content (mid ++ [c])
with IncludedAt : list pv -> option (list str) -> list str -> list pv -> Prop :=
| included_none_at before dir : IncludedAt before dir [] before
| included_one_at before dir f q text mid fs_ after :
    points fs dir f q -> text_at fs q text ->
    LoadsAt before (Some (tl q)) text mid -> IncludedAt mid dir fs_ after ->
    IncludedAt before dir (f :: fs_) after.

(** The file at [q] includes the file at [q']. *)
Definition includes (q q' : list str) : Prop :=
  exists t raw incs f, text_at fs q t /\ parse t = Ok raw /\ include_list raw incs /\ In f incs /\ points fs (Some (tl q)) f q'.
(** Chains of includes starting at [q] have at most [n] steps. *)
Fixpoint include_depth (n : nat) (q : list str) : Prop :=
  forall q', includes q q' -> match n with 0 => False | S m => include_depth m q' end.
End Spec.
