(** * Concrete cases for C128: a parameter file with an include and references, and one that means nothing *)
From Coq Require Import Sorted.
From Verif Require Import Prelude PyStr SortLib TextLib Utf8 Order Range Params ParamsSpec ParamsProofs ParamsUnify ParamsPairs ParamsProps ParamsGet ParamsGetProps ParamsEval ParamsEvalProps Interp InterpSpec InterpProofs InterpWf InterpProps Load LoadSpec LoadProps
  InterpLoop InterpExpand InterpBroken Fs FsProofs FsProps PathLists PathListsProps Decimals Io IoProps KeyValue KeyValueProps KvParams KvParamsProps Scripts ScriptsProps OsPath OsPathSpec OsPathProofs Mains MainsProofs MainsProps LoadFs LoadFsSpec LoadFsProps LoadComplete Entry EntryProps Command CommandProps MainsWitness.
From Verif Require Import SubNamespaces CommandMains CommandWitness CommandFiles.

Definition yaml128 : list (str * yaml) :=
  [(!!"7", YMap [(KStr includes_key, YList [ys !!"cfg/common.yaml"]); (KStr !!"input", yz !!"%root%in.zip"); (KStr !!"num_slices", ys !!"%cut.slices%"); (KStr !!"output_dir", ys !!"%out%/s")]);
   (!!"c", YMap [(KStr !!"root", ys !!"/"); (KStr !!"cut", YMap [(KStr !!"slices", YLeaf (PInt 2))]); (KStr !!"out", ys !!"elsewhere")]);
   (!!"8", YMap [(KStr includes_key, YList [ys !!"cfg/common.yaml"]); (KStr !!"root", YMap [(KStr !!"in", ys !!"x")])])].
Definition parse128 (t : str) : res yaml := match dfind yaml128 t with Some t => Ok t | None => Raise AnyError end.
Definition fs128 : list (list str * fnode) := ([!!"7.yaml"], KFile !!"7") :: ([!!"8.yaml"], KFile !!"8") :: ([!!"common.yaml"; !!"cfg"], KFile !!"c") :: ([!!"cfg"], KDir) :: fs84.
Definition args7 : list str := [!!"7.yaml"; !!"-p"; !!"output_dir"; !!"out/s"].
Notation run128 main args fs := (command (fun _ lg => (lg, Ok tt)) word_ascii ft1 parse128 [] [] main 5 args fs (MkLogger 30 [])).
Lemma parse128_wf : forall t y, parse128 t = Ok y -> yaml_wf y.
Proof.
  intros t y. unfold parse128. destruct (dfind yaml128 t) as [z|] eqn:E; [|discriminate]. intros H. injection H as <-. apply dfind_in in E. simpl in E.
  repeat (destruct E as [E|E]; [injection E as _ <-; yaml_wf_tac|]). all: contradiction.
Qed.
Lemma wf128 : wf_fs fs128. Proof. wf_files. Qed.
Example C128_tame_witness : all_tame fs128 word_ascii parse128.
Proof.
  intros q t _ raw own E O. unfold parse128 in E. destruct (dfind yaml128 t) as [z|] eqn:D; [|discriminate]. injection E as ->. apply dfind_in in D. cbn [yaml128 In] in D.
  repeat (destruct D as [D|D]; [injection D as _ <-; refine (tame_map _ _ _ O eq_refl _ _); [vm_compute; plain_tac|vm_compute; reflexivity]|]). contradiction.
Qed.
Definition R7 : pv := PParams [] [(!!"root", PStr !!"/"); (!!"cut", PParams [!!"cut"] [(!!"slices", PInt 2)]); (!!"out", PStr !!"elsewhere");
  (!!"input", PParams [!!"input"] [(!!"type", PStr !!"zip"); (!!"path", PStr !!"/in.zip")]); (!!"num_slices", PInt 2); (!!"output_dir", PStr !!"elsewhere/s")].
Lemma load7 : load_file fs128 [] word_ascii ft1 parse128 [] 5 !!"7.yaml" None None [] = Ok R7.
Proof. vm_compute. reflexivity. Qed.
Lemma text128 q t u : look fs128 q = Some (KFile u) -> decode u = Ok u -> universal_newlines u = u -> text_at fs128 q t -> t = u.
Proof. intros L D U (b & v & L' & E & ->). rewrite L in L'. injection L' as <-. apply C68_round_trip in E. congruence. Qed.
Lemma gives7 : file_gives word_ascii ft1 parse128 [] fs128 [!!"7.yaml"] (view R7).
Proof.
  assert (W : wf_params (given None)) by (split; [repeat split; constructor|reflexivity]).
  destruct (C127_sound fs128 wf128 word_ascii eq_refl ft1 parse128 [] parse128_wf [] 5 !!"7.yaml" None [] R7 eq_refl (Forall_nil _) W C128_tame_witness load7) as (q & t & cs & L & T & G & V).
  assert (L' : leads fs128 [] !!"7.yaml" [!!"7.yaml"]) by (split; [vm_compute; intuition discriminate|]; right; split; [discriminate|]; vm_compute py_split; op).
  assert (q = [!!"7.yaml"]) by exact (leads_fun _ _ _ _ _ L L'). subst q. exists t, cs. split; [exact T|]. split; [exact G|exact V].
Qed.
Lemma agree7 : agree (view R7) [(!!"output_dir", !!"out/s")].
Proof.
  split; [repeat constructor; discriminate|]. split.
  - intros l1 p v l2 q w l3 E. destruct l1 as [|? [|? ?]]; [|discriminate E|discriminate E]. injection E as _ _ E. destruct l2; discriminate E.
  - intros x v. destruct x as [|k x]; [split; intros [A B]; discriminate|]. change (rev (override_leaves [(!!"output_dir", !!"out/s")])) with [([!!"output_dir"], PStr !!"out/s")]. cbn [decided is_prefix andb].
    destruct (str_eqb !!"output_dir" k) eqn:K.
    + apply str_eqb_eq in K. subst k. split; intros [A B]; [|destruct x; discriminate A]. cbn [andb] in B. destruct x; discriminate B.
    + cbn [andb]. destruct (str_eqb k !!"output_dir") eqn:K2; [apply str_eqb_eq in K2; subst k; discriminate K|]. cbn [andb]. split; intros [A B]; discriminate B.
Qed.
(** The hypotheses of C128_any_file and C128_split *)
Example C128_hypotheses :
  Forall (fun w => value_word w \/ w = !!"-p") args7 /\ Spells args7 !!"7.yaml" [(!!"output_dir", !!"out/s")] /\ leads fs128 [] !!"7.yaml" [!!"7.yaml"] /\ file_gives word_ascii ft1 parse128 [] fs128 [!!"7.yaml"] (view R7) /\
  agree (view R7) [(!!"output_dir", !!"out/s")] /\
  let V := overridden (view R7) [(!!"output_dir", !!"out/s")] in
  asks_level V 20 /\ zip_file [] V !!"input" [!!"in.zip"] /\ V [!!"num_slices"] = Some (Leaf (PInt (Z.of_nat 2))) /\ unset (V [!!"explicit_split"]) /\ seed_is V None /\ path_of [] V !!"output_dir" [!!"s"; !!"out"] /\
  wf_fs fs128 /\ holds marked_zip fs128 [!!"in.zip"] ks84 val84 /\ unblocked fs128 [!!"s"; !!"out"] /\ (forall o, In o (split_outs [!!"s"; !!"out"] 2) -> free fs128 o /\ o <> [!!"in.zip"]).
Proof.
  split; [repeat (apply Forall_cons; [first [right; reflexivity|left; apply value_check; reflexivity]|]); apply Forall_nil|].
  split; [exists [], [!!"-p"; !!"output_dir"; !!"out/s"], [], [(!!"output_dir", !!"out/s")]; split; [reflexivity|]; split; [apply value_check; reflexivity|]; split; [constructor|]; split; [apply pairs_more; [apply value_check; reflexivity|apply value_check; reflexivity|constructor]|reflexivity]|].
  split; [split; [vm_compute; intuition discriminate|]; right; split; [discriminate|]; vm_compute py_split; op|]. split; [exact gives7|]. split; [exact agree7|]. cbv zeta.
  split; [apply asks_default; left; reflexivity|]. split; [split; [reflexivity|]; split; [left; reflexivity|]; split; [left; reflexivity|]; exists !!"/in.zip"; split; reflexivity|].
  split; [reflexivity|]. split; [left; reflexivity|]. split; [left; reflexivity|]. split; [exists !!"out/s"; split; reflexivity|]. split; [exact wf128|].
  split; [unfold holds, disk_at; replace (look fs128 [!!"in.zip"]) with (look fs84 [!!"in.zip"]) by reflexivity; exact in84|]. split; [no_obstacle|].
  intros o [<-|[<-|[<-|[]]]]; (split; [left; reflexivity|discriminate]).
Qed.
(** 8.yaml makes a namespace of a parameter of its include: it means nothing. *)
Lemma nothing8 cs : ~ GivesAt fs128 word_ascii ft1 parse128 [] [PParams [] []] (Some []) !!"8" cs.
Proof.
  intros G. assert (W : wf_params (given None)) by (split; [repeat split; constructor|reflexivity]).
  assert (L : leads fs128 [] !!"8.yaml" [!!"8.yaml"]) by (split; [vm_compute; intuition discriminate|]; right; split; [discriminate|]; vm_compute py_split; op).
  assert (T : text_at fs128 [!!"8.yaml"] !!"8") by (exists !!"8", !!"8"; repeat split; reflexivity).
  destruct (C127_complete fs128 wf128 word_ascii eq_refl ft1 parse128 [] parse128_wf [] !!"8.yaml" None [] _ _ cs eq_refl (Forall_nil _) W L T G) as (n & R & F & _).
  assert (K : forall m, load_file fs128 [] word_ascii ft1 parse128 [] (2 + m) !!"8.yaml" None None [] = Raise IOError) by (intros m; vm_compute; reflexivity).
  assert (E := F (2 + n) (Nat.le_add_l n 2)). rewrite K in E. discriminate E.
Qed.
Example C128_witness :
  match run128 run_split args7 fs128 with
  | Done fs1 lg1 None => (lg1, found fs1 [!!"0.zip"; !!"s"; !!"out"]) = (MkLogger 20 [20%Z], Some ([!!"a"; !!"c"], [!!"aa"; !!"cc"]))
  | _ => False
  end /\ run128 run_split [!!"8.yaml"] fs128 = Done fs128 (MkLogger 30 []) (Some IOError).
Proof. split; vm_compute; repeat split; reflexivity. Qed.
