(** * Property C124: Parameters.as_mapping and Parameters.pickled_object_from_file (model and theorems) *)
From Verif Require Import Prelude PyStr Utf8 TextLib Io Params ParamsSpec ParamsProofs ParamsGet Fs FsProofs FsProps.

(** ** Model *)
(** as_mapping, parameters.py:1356-1357: the object's own mapping; the DeprecationWarning is left out *)
Definition as_mapping (p : pv) : list (str * pv) := match p with PParams _ d => d | _ => [] end.
Section Pickled.
Context {obj : Type}.
(** pickle.load on a file's contents (parameters.py:1270) *)
Variable unpickle : bytes -> res obj.
(** pickled_object_from_file, parameters.py:1264-1270 *)
Definition pickled_object_from_file (cwd : list str) (p : pv) (name : str) (fs : list (list str * fnode)) : res obj :=
  let* q := existing_file cwd p name fs in
  match look fs q with Some (KFile b) => unpickle b | _ => Raise FileNotFoundError end.

(** ** Theorems *)
(** C124: if the parameter names a file, the result is what pickle makes of its contents; otherwise the error is that of existing_file: ParameterError if there is no
    file of that name or no such parameter, the type error for a value that is no string. *)
Theorem C124_pickled : forall cwd p name fs, wf_params p -> Forall proper cwd ->
  (forall q b, names_path cwd p name q -> look fs q = Some (KFile b) -> pickled_object_from_file cwd p name fs = unpickle b) /\
  (forall q, names_path cwd p name q -> (forall b, look fs q <> Some (KFile b)) -> pickled_object_from_file cwd p name fs = Raise ParameterError) /\
  (forall e, names_none p name e -> pickled_object_from_file cwd p name fs = Raise e).
Proof.
  intros cwd p name fs W C. destruct (C80_existing cwd p name fs W C) as (F & N & _ & _ & E). unfold pickled_object_from_file. split; [|split].
  - intros q b P L. rewrite (F q b P L). cbn [bind]. now rewrite L.
  - intros q P L. now rewrite (N q P L).
  - intros e P. now rewrite (proj1 (E e P)).
Qed.
End Pickled.
(** C124: the mapping has exactly the parameters (and namespaces) without a dot in their name, None included, each once. *)
Theorem C124_mapping : forall p, wf_params p -> NoDup (map fst (as_mapping p)) /\ forall k v, In (k, v) (as_mapping p) <-> ~ In dot k /\ Stored p k v.
Proof.
  intros p (W & T). destruct p as [| | | | | | | | |pre d|]; try discriminate. cbn [as_mapping]. destruct W as (ND & D & _). split; [exact ND|]. intros k v. unfold Stored. split.
  - intros I. assert (Dk : ~ In dot k) by (rewrite Forall_forall in D; apply D; apply in_map_iff; exists (k, v); auto). split; [exact Dk|]. rewrite (py_split_no dot k Dk). econstructor; [eassumption|constructor].
  - intros (Dk & R). rewrite (py_split_no dot k Dk) in R. inversion R as [|? ? ? y ? ? I' R']; subst. inversion R'; subst. exact I'.
Qed.
(** C124: two Parameters objects with the same mapping answer every question for a name alike, whatever their namespaces. *)
Theorem C124_mapping_determines : forall p p', wf_params p -> wf_params p' -> (forall k v, In (k, v) (as_mapping p) <-> In (k, v) (as_mapping p')) -> forall name v, Stored p name v <-> Stored p' name v.
Proof.
  assert (Half : forall p p', wf_params p -> wf_params p' -> (forall k v, In (k, v) (as_mapping p) -> In (k, v) (as_mapping p')) -> forall name v, Stored p name v -> Stored p' name v).
  { intros p p' (W & T) (W' & T') H name v. unfold Stored. destruct p as [| | | | | | | | |pre d|]; try discriminate. destruct p' as [| | | | | | | | |pre' d'|]; try discriminate. cbn [as_mapping] in H.
    assert (N := py_split_nonnil dot name). destruct (py_split dot name) as [|k q]; [congruence|]. intros R. inversion R as [|? ? ? y ? ? I' R']; subst. econstructor; [exact (H _ _ I')|exact R']. }
  intros p p' W W' H name v. split; [apply (Half p p' W W')|apply (Half p' p W' W)]; intros k x I; now apply H.
Qed.
Example C124_witness :
  pickled_object_from_file (fun b => if is_nil b then Raise AnyError else Ok b) [] (ex_cfg !!"/home/u/x") !!"out" ex_fs = Ok !!"hello" /\
  pickled_object_from_file (fun b => if is_nil b then Raise AnyError else Ok b) [] (ex_cfg !!"/home/f") !!"out" ex_fs = Raise AnyError /\
  pickled_object_from_file (fun b => if is_nil b then Raise AnyError else Ok b) [] (ex_cfg !!"/home/u") !!"out" ex_fs = Raise ParameterError /\
  names_path [] (ex_cfg !!"/home/u/x") !!"out" [!!"x"; !!"u"; !!"home"] /\ wf_params (ex_cfg !!"/home/u/x") /\
  as_mapping (PParams [] [(!!"a", PParams [!!"a"] [(!!"b", PInt 1)]); (!!"c", PNone)]) = [(!!"a", PParams [!!"a"] [(!!"b", PInt 1)]); (!!"c", PNone)].
Proof.
  split; [vm_compute; reflexivity|]. split; [vm_compute; reflexivity|]. split; [vm_compute; reflexivity|]. split; [|split; [|reflexivity]].
  - exists !!"/home/u/x". split; [|vm_compute; reflexivity]. unfold Stored. replace (py_split dot !!"out") with [!!"out"] by reflexivity. eapply reach_down; [now left|constructor].
  - split; [|reflexivity]. simpl. repeat split; repeat constructor; simpl; unfold dotless; simpl; intuition discriminate.
Qed.
Print Assumptions C124_pickled.
Print Assumptions C124_mapping.
Print Assumptions C124_mapping_determines.
