(** * C104: what does not hold, and examples *)
From Coq Require Import Relations.
From Verif Require Import Prelude PyStr Order Range Params ParamsSpec ParamsProofs Heap HeapProps HeapValues HeapPairs HeapMain.

(** A program: x = [1]; d = {"a": x, "b": {"c": 2}}; p = Parameters.from_mapping(d).  The objects are x (0), the inner dictionary (1), d (2), the inner Parameters
    object (3) and p (4). *)
Definition prog : list event :=
  [NewList [Leaf (PInt 1)]; NewDict [(!!"c", Leaf (PInt 2))]; NewDict [(!!"a", Ref 0); (!!"b", Ref 1)]; FromMapping (Ref 2) []].
Definition heap4 : list cell := Eval vm_compute in history 10 [] prog.
Lemma heap4_reachable : reachable 10 heap4.
Proof. now exists prog. Qed.
Ltac read_it := repeat first [now constructor | (eapply rd_list; [reflexivity|]) | (eapply rd_dict; [reflexivity|]) | (eapply rd_params; [reflexivity|]) | constructor | split].

(** C104 restricted to values without lists is not a weakness of the proof: a list is not copied, and when the program changes it the Parameters object's value changes. *)
Theorem C104_list_refuted : ~ (forall limit h, reachable limit h -> forall p t, is_parameters h p -> reads h p t -> forall es, reads (history limit h es) p t).
Proof.
  intros H. set (t := PParams [] [(!!"a", PList [PInt 1]); (!!"b", PParams [!!"b"] [(!!"c", PInt 2)])]).
  assert (R : reads heap4 (Ref 4) t) by (unfold t; read_it).
  specialize (H 10 heap4 heap4_reachable (Ref 4) t (ex_intro _ _ (ex_intro _ _ eq_refl)) R [SetList 0 []]).
  assert (R2 : reads (history 10 heap4 [SetList 0 []]) (Ref 4) (PParams [] [(!!"a", PList []); (!!"b", PParams [!!"b"] [(!!"c", PInt 2)])])) by (vm_compute; read_it).
  assert (X := reads_fun _ _ _ _ H R2). discriminate.
Qed.
(** from_key_value_pairs changes a dictionary it is given as a value, when a later key leads into it:
    d = {}; Parameters.from_key_value_pairs([("a", d), ("a.b", 1)]) leaves d = {"b": 1}. *)
Theorem C104_pairs_refuted : ~ (forall limit h, reachable limit h -> forall kvs sep h' r, (forall o, In o (map snd kvs) -> exists_obj h o = true) -> h_from_pairs limit h kvs sep = (h', r) -> unchanged h h').
Proof.
  intros H. set (h := history 10 [] [NewDict []]). set (kvs := [(!!"a", Ref 0); (!!"a.b", Leaf (PInt 1))]).
  assert (U : unchanged h (fst (h_from_pairs 10 h kvs dot))).
  { apply (H 10 h (ex_intro _ _ eq_refl) kvs dot _ (snd (h_from_pairs 10 h kvs dot))); [|now destruct (h_from_pairs 10 h kvs dot)]. intros o [<- |[<- |[]]]; reflexivity. }
  specialize (U 0 (CDict []) eq_refl). vm_compute in U. discriminate.
Qed.

(** The theorems apply to the program above, continued: the dictionaries and the list are changed, p is unified with a new dictionary, as_nested_dicts is called and its
    result changed; a dictionary is made to contain itself. *)
Definition more : list event :=
  [SetDict 1 [(!!"c", Leaf (PInt 3))]; SetDict 2 []; NewDict [(!!"b", Ref 1); (!!"z", Ref 0)]; Unify (Ref 4) (Ref 5) []; AsDicts (Ref 4); SetDict 13 []; SetDict 1 [(!!"x", Ref 2)]; SetDict 2 [(!!"y", Ref 1)]].
Theorem C104_example :
  reachable 10 heap4 /\ is_parameters heap4 (Ref 4) /\ sees heap4 (Ref 4) [!!"b"; !!"c"] = Some (SLeaf (PInt 2)) /\ sees heap4 (Ref 4) [!!"a"] = Some (SList 0) /\ sees heap4 (Ref 4) [] = Some (SKeys [!!"a"; !!"b"]) /\
  sees (history 10 heap4 more) (Ref 4) [!!"b"; !!"c"] = Some (SLeaf (PInt 2)) /\
  reads heap4 (Ref 3) (PParams [!!"b"] [(!!"c", PInt 2)]) /\ (forall es, reads (history 10 heap4 es) (Ref 3) (PParams [!!"b"] [(!!"c", PInt 2)])) /\
  (* the value unify gave *)
  reads (history 10 heap4 (firstn 4 more)) (Ref 11) (PParams [] [(!!"a", PList [PInt 1]); (!!"b", PParams [!!"b"] [(!!"c", PInt 3)]); (!!"z", PList [PInt 1])]) /\
  (* the value as_nested_dicts gave *)
  reads (history 10 heap4 (firstn 5 more)) (Ref 13) (PMap [(!!"a", PList [PInt 1]); (!!"b", PMap [(!!"c", PInt 2)])]) /\
  (* a dictionary inside itself *)
  clos_trans _ (inside (history 10 heap4 more)) (Ref 2) (Ref 2) /\ (forall limit prefix p, snd (h_from_mapping limit (history 10 heap4 more) prefix (Ref 2)) <> Ok p).
Proof.
  assert (Re := heap4_reachable).
  assert (C : clos_trans _ (inside (history 10 heap4 more)) (Ref 2) (Ref 2)).
  { eapply t_trans; apply t_step.
    - exists [(!!"y", Ref 1)], (!!"y"). split; [vm_compute; reflexivity|]. split; [now left|]. eexists. vm_compute. reflexivity.
    - exists [(!!"x", Ref 2)], (!!"x"). split; [vm_compute; reflexivity|]. split; [now left|]. eexists. vm_compute. reflexivity. }
  assert (P4 : is_parameters heap4 (Ref 4)) by (eexists _, _; reflexivity). assert (P3 : is_parameters heap4 (Ref 3)) by (eexists _, _; reflexivity).
  assert (R3 : reads heap4 (Ref 3) (PParams [!!"b"] [(!!"c", PInt 2)])) by read_it.
  split; [exact Re|]. split; [exact P4|]. split; [reflexivity|]. split; [reflexivity|]. split; [reflexivity|]. split; [exact (C104_frozen 10 heap4 Re (Ref 4) P4 more [!!"b"; !!"c"])|]. split; [exact R3|].
  split; [exact (C104_frozen_value 10 heap4 Re (Ref 3) _ P3 R3 (conj Logic.I Logic.I))|]. split; [vm_compute; read_it|]. split; [vm_compute; read_it|]. split; [exact C|].
  intros limit prefix p. apply (C104_cycle 10); [|exact C]. exists (prog ++ more). unfold history. rewrite fold_left_app. reflexivity.
Qed.
(** The hypotheses of C104_values, C104_isolated and C104_from_key_value_pairs are met. *)
Theorem C104_example_values :
  (let h := firstn 2 heap4 in reachable 10 h /\ reads h (Ref 1) (PMap [(!!"c", PInt 2)]) /\ listless (PMap [(!!"c", PInt 2)]) /\ depth (PMap [(!!"c", PInt 2)]) < 10 /\
    exists h' p, h_from_mapping 10 h [] (Ref 1) = (h', Ok p) /\ forall es, reads (history 10 h' es) p (PParams [] [(!!"c", PInt 2)])) /\
  (let kvs := [(!!"a.x", Ref 0); (!!"a.y", Leaf (PStr !!"s"))] in (forall o, In o (map snd kvs) -> exists_obj heap4 o = true /\ ~ is_dict heap4 o) /\
    exists h' p, h_from_pairs 10 heap4 kvs dot = (h', Ok p) /\ unchanged heap4 h' /\ reads h' p (PParams [] [(!!"a", PParams [!!"a"] [(!!"x", PList [PInt 1]); (!!"y", PStr !!"s")])])).
Proof.
  cbv zeta. assert (Re : reachable 10 (firstn 2 heap4)) by (now exists (firstn 2 prog)). assert (R : reads (firstn 2 heap4) (Ref 1) (PMap [(!!"c", PInt 2)])) by read_it. split.
  - split; [exact Re|]. split; [exact R|]. split; [exact (conj Logic.I Logic.I)|]. split; [vm_compute; lia|]. eexists _, _. split; [vm_compute; reflexivity|].
    destruct (C104_isolated 10 _ Re (Ref 1) _ [] _ (Ref 2) R (conj Logic.I Logic.I) ltac:(vm_compute; lia) ltac:(vm_compute; reflexivity)) as (v & V & H). vm_compute in V. injection V as <-. exact H.
  - assert (O : forall o, In o (map snd [(!!"a.x", Ref 0); (!!"a.y", Leaf (PStr !!"s"))]) -> exists_obj heap4 o = true /\ ~ is_dict heap4 o).
    { intros o [<- |[<- |[]]]; (split; [reflexivity|intros (i & D); discriminate]). }
    split; [exact O|]. eexists _, _. split; [vm_compute; reflexivity|]. split; [|vm_compute; read_it].
    eapply (proj1 (C104_from_key_value_pairs 10 heap4 heap4_reachable _ dot _ _ O ltac:(vm_compute; reflexivity))).
Qed.
