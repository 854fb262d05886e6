(** * Property C121: a concrete tar file and what Coq's kernel is asked to trust *)
From Verif Require Import Prelude PyStr TextLib Utf8 Params Fs FsProofs FsProps Io IoProps KeyValue KeyValueProps Scripts ScriptsProps Mains MainsProofs TarMain TarMainProps TarLinks TarLinksProps TarReplace.

(** A tar file with two versions of "a/b", a directory, a text with CRLF, and a symbolic link. *)
Definition ks121 : list (str * kind) := [(!!"a/b", TFile !!"1"); (!!"a", TDir); (!!"t", TFile [65; 13; 10; 66]%N); (!!"l", TOther); (!!"a/b", TFile !!"22222")].
Definition ms121 : list (str * entry) := [(!!"a/b", EFile !!"1"); (!!"a", EOther); (!!"t", EFile [65; 13; 10; 66]%N); (!!"l", ESym !!"t"); (!!"a/b", EFile !!"22222")].
Definition untar121 (b : bytes) : res (list (str * kind) * option exn) := match b with [1%N] => Ok (ks121, None) | _ => Raise AnyError end.
Definition gunzip121 (b : bytes) : res bytes := match b with [1%N] => Ok [2%N] | _ => Raise AnyError end.
Definition untar_gz121 (b : bytes) : res (list (str * entry)) := match b with [2%N] => Ok ms121 | _ => Raise AnyError end.
Notation run121 := (tar_main [!!"w"] toy_zip [] untar121).
Notation zip121 fs n := (byte_read toy_zip (files_on [!!"w"] fs) (BZip !!"d/x.zip" n) (-1)).
Notation zip_text121 fs n := (read_all toy_zip gunzip121 (fun _ => Raise AnyError) (files_on [!!"w"] fs) (CBytes (BZip !!"d/x.zip" n) decode)).
Notation tgz121 fs n := (tgz_text gunzip121 untar_gz121 9 decode (files_on [!!"w"] fs) !!"d/x.tar" n).
Example C121_witness :
  (let r := run121 !!"d/x.tar" false None (fs90 [1%N]) in snd r = None /\
     tgz121 (fst r) !!"a/b" = Ok !!"22222" /\ zip_text121 (fst r) !!"a/b" = Ok !!"22222" /\
     tgz121 (fst r) !!"t" = Ok [65; 13; 10; 66]%N /\ zip121 (fst r) !!"t" = Ok [65; 13; 10; 66]%N /\ zip_text121 (fst r) !!"t" = Ok [65; 10; 66]%N /\
     tgz121 (fst r) !!"l" = Ok [65; 13; 10; 66]%N /\ zip121 (fst r) !!"l" = Raise KeyError) /\
  (let r := run121 !!"d/x.tar" false (Some 4%N) (fs90 [1%N]) in snd r = None /\ tgz121 (fst r) !!"a/b" = Ok !!"22222" /\ zip_text121 (fst r) !!"a/b" = Ok !!"1").
Proof. vm_compute. repeat split. Qed.
Example C121_hypotheses : convertible [!!"w"] untar121 gunzip121 untar_gz121 (fs90 [1%N]) !!"d/" !!"x.tar" [!!"d"; !!"w"] !!"x.zip" ks121 ms121 /\ Forall proper [!!"w"] /\
  (forall x, ~ In (keys_entry, EFile x) ms121) /\
  (exists l1 l2, ms121 = l1 ++ (!!"t", EFile [65; 13; 10; 66]%N) :: l2 /\ ~ In !!"t" (map fst l2)) /\ none_small None !!"l" ms121 /\
  (exists l2, ms121 = [] ++ (!!"a/b", EFile !!"1") :: l2 ++ [(!!"a/b", EFile !!"22222")] /\ ~ In !!"a/b" (map fst l2)) /\ small (Some 4%N) !!"1" /\ ~ small (Some 4%N) !!"22222".
Proof.
  destruct C90_hypotheses as (W & A & Zn & _).
  split; [split; [exact W|split; [exact A|split; [exact Zn|split; [vm_compute; discriminate|]]]]|].
  - split; [exists [1%N], [2%N]; repeat split; reflexivity|]. split.
    + repeat (apply Forall2_cons; [split; [reflexivity|intros x; cbn [snd]; split; intros H; first [discriminate H|injection H as <-; reflexivity]]|]). apply Forall2_nil.
    + intros n x I. cbn [ms121 In] in I. decompose [or] I; try contradiction; match goal with H : (_, _) = (n, _) |- _ => first [discriminate H|injection H as <- <-] end; (split; [discriminate|]; split; [vm_compute; intuition discriminate|eexists; vm_compute; reflexivity]).
  - split; [exact proper90_w|]. split; [intros x I; cbn [ms121 In] in I; decompose [or] I; try contradiction; discriminate|].
    split; [exists [(!!"a/b", EFile !!"1"); (!!"a", EOther)], [(!!"l", ESym !!"t"); (!!"a/b", EFile !!"22222")]; split; [reflexivity|vm_compute; intuition discriminate]|].
    split; [intros x I; cbn [ms121 In] in I; decompose [or] I; try contradiction; discriminate|].
    split; [exists [(!!"a", EOther); (!!"t", EFile [65; 13; 10; 66]%N); (!!"l", ESym !!"t")]; split; [reflexivity|vm_compute; intuition discriminate]|].
    split; [intros c E; injection E as <-; vm_compute; discriminate|intros H; specialize (H _ eq_refl); vm_compute in H; now apply H].
Qed.
Print Assumptions C121_same_text.
Print Assumptions C121_missing.
Print Assumptions C121_store.
Print Assumptions C121_pairs.
Print Assumptions C121_outdated_refuted.
