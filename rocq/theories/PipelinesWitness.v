(** * Concrete cases for C134: splitting and joining, with parameter files that have includes and references *)
From Coq Require Import Sorted.
From Verif Require Import Prelude PyStr SortLib TextLib Utf8 Order Range Params ParamsSpec ParamsProofs ParamsUnify ParamsPairs ParamsProps ParamsGet ParamsGetProps ParamsEval ParamsEvalProps Interp InterpSpec InterpProofs InterpWf InterpProps Load LoadSpec LoadProps
  InterpLoop InterpExpand InterpBroken Fs FsProofs FsProps PathLists PathListsProps Decimals Io IoProps KeyValue KeyValueProps KvParams KvParamsProps Scripts ScriptsProps OsPath OsPathSpec OsPathProofs Mains MainsProofs MainsProps LoadFs LoadFsSpec LoadFsProps LoadComplete Entry EntryProps Command CommandProps MainsWitness.
From Verif Require Import SubNamespaces CommandMains CommandWitness CommandFiles CommandFilesWitness Pipelines.

Definition yaml134 : list (str * yaml) :=
  (!!"9", YMap [(KStr includes_key, YList [ys !!"cfg/common.yaml"]); (KStr !!"where", ys !!"out/s"); (KStr !!"input_store_list_file", ys !!"%where%/_slices.txt"); (KStr !!"output", yz !!"%root%joined.zip")]) :: yaml128.
Definition parse134 (t : str) : res yaml := match dfind yaml134 t with Some t => Ok t | None => Raise AnyError end.
Definition fs134 : list (list str * fnode) := ([!!"9.yaml"], KFile !!"9") :: fs128.
Definition args9 : list str := [!!"9.yaml"].
Notation run134 main args fs := (command (fun _ lg => (lg, Ok tt)) word_ascii ft1 parse134 [] [] main 5 args fs (MkLogger 30 [])).
Lemma parse134_wf : forall t y, parse134 t = Ok y -> yaml_wf y.
Proof.
  intros t y. unfold parse134. destruct (dfind yaml134 t) as [z|] eqn:E; [|discriminate]. intros H. injection H as <-. apply dfind_in in E. simpl in E.
  repeat (destruct E as [E|E]; [injection E as _ <-; yaml_wf_tac|]). all: contradiction.
Qed.
Lemma wf134 : wf_fs fs134. Proof. wf_files. Qed.
Lemma tame134 : all_tame fs134 word_ascii parse134.
Proof.
  intros q t _ raw own E O. unfold parse134 in E. destruct (dfind yaml134 t) as [z|] eqn:D; [|discriminate]. injection E as ->. apply dfind_in in D. cbn [yaml134 yaml128 In] in D.
  repeat (destruct D as [D|D]; [injection D as _ <-; refine (tame_map _ _ _ O eq_refl _ _); [vm_compute; plain_tac|vm_compute; reflexivity]|]). contradiction.
Qed.
Definition R9 : pv := PParams [] [(!!"root", PStr !!"/"); (!!"cut", PParams [!!"cut"] [(!!"slices", PInt 2)]); (!!"out", PStr !!"elsewhere"); (!!"where", PStr !!"out/s"); (!!"input_store_list_file", PStr !!"out/s/_slices.txt");
  (!!"output", PParams [!!"output"] [(!!"type", PStr !!"zip"); (!!"path", PStr !!"/joined.zip")])].
Lemma gives134 s q R : leads fs134 [] s q -> load_file fs134 [] word_ascii ft1 parse134 [] 5 s None None [] = Ok R -> file_gives word_ascii ft1 parse134 [] fs134 q (view R).
Proof.
  intros L' E. assert (W : wf_params (given None)) by (split; [repeat split; constructor|reflexivity]).
  destruct (C127_sound fs134 wf134 word_ascii eq_refl ft1 parse134 [] parse134_wf [] 5 s None [] R eq_refl (Forall_nil _) W tame134 E) as (q' & t & cs & L & T & G & V).
  assert (q' = q) by exact (leads_fun _ _ _ _ _ L L'). subst q'. exists t, cs. split; [exact T|]. split; [exact G|exact V].
Qed.
Lemma leads7 : leads fs134 [] !!"7.yaml" [!!"7.yaml"]. Proof. split; [vm_compute; intuition discriminate|]; right; split; [discriminate|]; vm_compute py_split; op. Qed.
Lemma leads9 : leads fs134 [] !!"9.yaml" [!!"9.yaml"]. Proof. split; [vm_compute; intuition discriminate|]; right; split; [discriminate|]; vm_compute py_split; op. Qed.
Lemma gives7' : file_gives word_ascii ft1 parse134 [] fs134 [!!"7.yaml"] (view R7). Proof. apply (gives134 !!"7.yaml"); [exact leads7|vm_compute; reflexivity]. Qed.
Lemma gives9 : file_gives word_ascii ft1 parse134 [] fs134 [!!"9.yaml"] (view R9). Proof. apply (gives134 !!"9.yaml"); [exact leads9|vm_compute; reflexivity]. Qed.
(** The hypotheses of C134_split_then_join *)
Example C134_hypotheses :
  wf_fs fs134 /\ Forall (fun w => value_word w \/ w = !!"-p") args7 /\ Spells args7 !!"7.yaml" [(!!"output_dir", !!"out/s")] /\ leads fs134 [] !!"7.yaml" [!!"7.yaml"] /\ file_gives word_ascii ft1 parse134 [] fs134 [!!"7.yaml"] (view R7) /\
  agree (view R7) [(!!"output_dir", !!"out/s")] /\
  (let V := overridden (view R7) [(!!"output_dir", !!"out/s")] in
   asks_level V 20 /\ zip_file [] V !!"input" [!!"in.zip"] /\ V [!!"num_slices"] = Some (Leaf (PInt (Z.of_nat 2))) /\ unset (V [!!"explicit_split"]) /\ seed_is V None /\ path_of [] V !!"output_dir" [!!"s"; !!"out"]) /\
  holds marked_zip fs134 [!!"in.zip"] ks84 val84 /\ unblocked fs134 [!!"s"; !!"out"] /\ Forall unbroken [!!"s"; !!"out"] /\ (forall o, In o (split_outs [!!"s"; !!"out"] 2) -> free fs134 o /\ o <> [!!"in.zip"]) /\
  part_without (split_outs [!!"s"; !!"out"] 2) fs134 fs134 /\
  Forall (fun w => value_word w \/ w = !!"-p") args9 /\ Spells args9 !!"9.yaml" [] /\ leads fs134 [] !!"9.yaml" [!!"9.yaml"] /\ file_gives word_ascii ft1 parse134 [] fs134 [!!"9.yaml"] (view R9) /\ agree (view R9) [] /\
  (let V2 := overridden (view R9) [] in asks_level V2 20 /\ path_of [] V2 !!"input_store_list_file" (!!"_slices.txt" :: [!!"s"; !!"out"]) /\ zip_file [] V2 !!"output" [!!"joined.zip"]) /\
  unblocked fs134 [] /\ free fs134 [!!"joined.zip"] /\ (forall o, In o (split_outs [!!"s"; !!"out"] 2) -> ~ below o []) /\ ~ below [!!"joined.zip"] [!!"s"; !!"out"] /\ ~ In [!!"joined.zip"] (split_outs [!!"s"; !!"out"] 2).
Proof.
  destruct C128_hypotheses as (A1 & A2 & _ & _ & A3 & A4). cbv zeta in A4. destruct A4 as (B1 & B2 & B3 & B4 & B5 & B6 & _).
  split; [exact wf134|]. split; [exact A1|]. split; [exact A2|]. split; [exact leads7|]. split; [exact gives7'|]. split; [exact A3|]. split; [cbv zeta; repeat (split; [assumption|]); assumption|].
  split; [unfold holds, disk_at; replace (look fs134 [!!"in.zip"]) with (look fs84 [!!"in.zip"]) by reflexivity; exact in84|]. split; [no_obstacle|].
  split; [exact (proj1 (proj2 (proj2 C85_join_split_hypotheses)))|].
  assert (FN : forall o, In o (split_outs [!!"s"; !!"out"] 2) -> look fs134 o = None) by (intros o [<-|[<-|[<-|[]]]]; reflexivity).
  split; [intros o I; split; [left; exact (FN o I)|intros ->; discriminate (FN _ I)]|].
  split; [intros x k Lx; split; [exact Lx|intros I; rewrite (FN _ I) in Lx; discriminate Lx]|].
  split; [apply Forall_cons; [left; apply value_check; reflexivity|apply Forall_nil]|].
  split; [exists [], [], [], []; split; [reflexivity|]; split; [apply value_check; reflexivity|]; split; [constructor|]; split; [constructor|reflexivity]|].
  split; [exact leads9|]. split; [exact gives9|]. split; [split; [constructor|]; split; [intros l1 p v l2 q w l3 E; destruct l1; discriminate E|intros x v; destruct x; split; intros [D E]; discriminate]|].
  split; [cbv zeta; split; [apply asks_default; left; reflexivity|]; split; [exists !!"out/s/_slices.txt"; split; reflexivity|split; [reflexivity|]; split; [left; reflexivity|]; split; [left; reflexivity|]; exists !!"/joined.zip"; split; reflexivity]|].
  split; [no_obstacle|]. split; [left; reflexivity|].
  split; [intros o [<-|[<-|[<-|[]]]] (b & B); destruct b; discriminate B|].
  split; [|intros [E|[E|[E|[]]]]; discriminate E].
  intros (b & B). destruct b as [|? [|? [|? ?]]]; discriminate B.
Qed.
Example C134_witness :
  match run134 run_split args7 fs134 with
  | Done fs1 lg1 None => match run134 run_join args9 fs1 with
                         | Done fs2 lg2 None => (found fs1 [!!"0.zip"; !!"s"; !!"out"], found fs2 [!!"joined.zip"]) = (Some ([!!"a"; !!"c"], [!!"aa"; !!"cc"]), Some ([!!"a"; !!"c"; !!"b"], [!!"aa"; !!"cc"; !!"bb"]))
                         | _ => False
                         end
  | _ => False
  end.
Proof. vm_compute. reflexivity. Qed.
(** A load that fails for want of a file may succeed when it has been added. *)
Example C134_only_kept_witness : added fs128 fs134 /\ (exists R, load_file fs134 [] word_ascii ft1 parse134 [] 5 !!"9.yaml" None None [] = Ok R) /\ load_file fs128 [] word_ascii ft1 parse134 [] 5 !!"9.yaml" None None [] = Raise FileNotFoundError.
Proof.
  split; [|split; [exists R9|]; vm_compute; reflexivity]. intros q k L. change fs134 with (set_node fs128 [!!"9.yaml"] !!"9"). rewrite look_set by discriminate.
  destruct (rpath_eqb_spec [!!"9.yaml"] q) as [<-|]; [|exact L]. vm_compute in L. discriminate L.
Qed.
