(** * Concrete cases for C132 *)
From Coq Require Import Relations.
From Verif Require Import Prelude PyStr SortLib TextLib Utf8 Order Range Params ParamsSpec ParamsProofs ParamsGet ParamsGetProps ParamsEq SubNamespaces ParamsEval ParamsEvalProps Fs FsProofs FsProps PathLists PathListsProps Decimals Io IoProps KeyValue KeyValueProps KvParams KvParamsProps OsPath OsPathSpec OsPathProofs Scripts ScriptsProps Mains MainsProofs MainsProps MainsWitness Provenance.

Notation change84 := (change marked_zip unit (fun _ => Raise AnyError) (fun _ _ => Raise AnyError) (fun _ => None) (fun _ _ => []) (fun _ => true) (fun _ => None) (fun _ => Ok (OUser tt)) (fun _ => false) (fun _ _ => Raise TypeError) (fun _ => false) (fun _ => false) (fun _ => false)
  [] [] [] (fun l => l) (fun _ l => rev l) (fun _ l => rev l) (fun _ _ => Raise AnyError) (fun _ fs _ => (fs, Some AnyError)) codes).
Lemma list_no_zip84 dir n b a : encode (slices_text dir n) = Ok b -> unzip marked_zip b <> Ok a.
Proof.
  unfold slices_text. destruct n as [|n]; [intros E; injection E as <-; discriminate|]. cbn [seq map].
  assert (H : exists t, py_join [LF] (path_str (slice_file dir 0) :: map (fun i => path_str (slice_file dir i)) (seq 1 n)) = slash :: t).
  { unfold path_str at 1. destruct (map _ (seq 1 n)); eexists; reflexivity. }
  destruct H as (t & ->). intros E. cbn [encode] in E. change (encode1 slash) with (Ok (A := list N) [slash]) in E. cbn [bind] in E. destruct (encode t) as [x|e]; [|discriminate]. injection E as <-. discriminate.
Qed.
Lemma any_join84 fs p : change84 fs (fst (run_join p fs)).
Proof.
  apply C132_any_join; try discriminate.
  - intros ? ? [].
  - intros x o E. injection E as <-. intros ? ? ?; discriminate.
Qed.
(** The input is split into two slices; the slices are joined again, into a new store; the input is deleted and one of the slices renamed; a join of files that do not exist fails, leaving
    an empty output; and what is there is sampled. *)
Definition fs132a := fst (run_split cfg84 fs84).
Definition fs132b := fst (run_join cfg84b fs132a).
Definition fs132c : list (list str * fnode) := ([!!"moved"], match look fs132b [!!"0.zip"; !!"s"; !!"out"] with Some k => k | None => KDir end) ::
  filter (fun e => negb (rpath_eqb (fst e) [!!"in.zip"] || rpath_eqb (fst e) [!!"0.zip"; !!"s"; !!"out"])) fs132b.
Definition cfg132 : pv := PParams [] [zip_at !!"input" !!"back.zip"; (!!"num_to_sample", PInt 2); (!!"output_zip_path", PStr !!"s/s.zip")].
Definition fs132d := fst (run_join cfg85 fs132c).
Definition fs132e := fst (run_sample cfg132 fs132d).
Lemma wc132 : wf_params cfg132. Proof. wf_cfg. Qed.
Lemma zip_type p s : wf_params p -> walk p (py_split dot !!"input") = Some (PParams [!!"input"] [(!!"type", PStr !!"zip"); (!!"path", PStr s)]) -> exists ns, Typed p !!"input" !!"zip" ns.
Proof. intros W E. eexists. eapply (proj1 (typed_at p !!"input" _ W E eq_refl eq_refl eq_refl eq_refl)). Qed.
Lemma find_path_in_some fs q k : find_path fs q = Some k -> In (q, k) fs.
Proof. induction fs as [|[q' k'] fs IH]; [discriminate|]. cbn [find_path]. destruct (rpath_eqb_spec q' q) as [->|]; [intros E; injection E as ->; now left|intros E; right; now apply IH]. Qed.
Lemma copies_check fs fs' : forallb (fun e => match snd e with KFile b => existsb (fun e' => match look fs (fst e') with Some (KFile b') => str_eqb b b' | _ => false end) fs | _ => true end) fs' = true -> rearranged fs fs'.
Proof.
  intros C q b L. destruct q as [|c q]; [discriminate|]. cbn [look] in L. apply find_path_in_some in L. rewrite forallb_forall in C. specialize (C _ L). cbn [snd] in C. apply existsb_exists in C. destruct C as (e & _ & C).
  exists (fst e). destruct (look fs (fst e)) as [[b'| |]|]; try discriminate. apply str_eqb_eq in C. now subst b'.
Qed.
Example C132_hypotheses :
  (forall a, unzip marked_zip [] <> Ok a) /\ (forall dir n b a, encode (slices_text dir n) = Ok b -> unzip marked_zip b <> Ok a) /\
  clos_refl_trans _ change84 fs84 fs132e /\ (exists v, holds_value marked_zip fs132e [!!"moved"] !!"a" v) /\ (exists v, holds_value marked_zip fs132e [!!"s.zip"; !!"s"] !!"b" v) /\
  look fs132e [!!"in.zip"] = None /\ !!"a" <> !!"__keys".
Proof.
  split; [discriminate|]. split; [exact list_no_zip84|]. split; [|split; [|split; [|split]]].
  - apply rt_trans with fs132a; [apply rt_step|apply rt_trans with fs132b; [apply rt_step|apply rt_trans with fs132c; [apply rt_step|apply rt_trans with fs132d; apply rt_step]]].
    + destruct (zip_type cfg84 !!"/in.zip" wc84 eq_refl) as (ns & T). exact (proj1 (C132_zip_inputs _ _ _ _ _ _ _ _ _ _ _ _ _ _ [] _ _ _ _ _ _ _ _ fs84 cfg84 ns wc84 (Forall_nil _) T)).
    + apply any_join84.
    + apply by_hand. apply copies_check. vm_compute; reflexivity.
    + apply any_join84.
    + destruct (zip_type cfg132 !!"back.zip" wc132 eq_refl) as (ns & T). exact (proj2 (C132_zip_inputs _ _ _ _ _ _ _ _ _ _ _ _ _ _ [] _ _ _ _ _ _ _ _ fs132d cfg132 ns wc132 (Forall_nil _) T)).
  - exists !!"aa". eexists. eexists. split; [vm_compute; reflexivity|]. split; vm_compute; reflexivity.
  - exists !!"bb". eexists. eexists. split; [vm_compute; reflexivity|]. split; vm_compute; reflexivity.
  - vm_compute; reflexivity.
  - discriminate.
Qed.
(** The outcomes along the way. *)
Example C132_witness : snd (run_split cfg84 fs84) = None /\ snd (run_join cfg84b fs132a) = None /\ snd (run_join cfg85 fs132c) = Some FileNotFoundError /\ snd (run_sample cfg132 fs132d) = None /\
  found fs132e [!!"all.zip"; !!"o"] = Some ([], []) /\ found fs132e [!!"s.zip"; !!"s"] = Some ([!!"b"; !!"c"], [!!"bb"; !!"cc"]).
Proof. repeat split; vm_compute; reflexivity. Qed.
(** Maps of files have to be left out: what they bring into a store was in no store. *)
Definition cfg132m : pv := PParams [] [(!!"input", PParams [!!"input"] [(!!"type", PStr !!"_doc_id_binary_source_from_params"); (!!"path", PStr !!"m")]); (!!"num_slices", PInt 1); (!!"output_dir", PStr !!"o")].
Definition fs132m : list (list str * fnode) := [([!!"m"], KFile (!!"k" ++ [9%N] ++ !!"/v")); ([!!"v"], KFile !!"text")].
Example C132_map_witness : (let (fs, e) := run_split cfg132m fs132m in (e, found fs [!!"0.zip"; !!"o"])) = (None, Some ([!!"k"], [!!"text"])) /\ forallb (fun e => match disk_at marked_zip fs132m (fst e) with Zip _ => false | _ => true end) fs132m = true.
Proof. split; vm_compute; reflexivity. Qed.
Print Assumptions C132_no_invention. Print Assumptions C132_any_join. Print Assumptions C132_zip_inputs. Print Assumptions C132_hypotheses.
