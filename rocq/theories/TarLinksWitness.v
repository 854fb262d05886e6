(** * C116: the hypotheses are met by concrete cases, and statements that are false *)
From Verif Require Import Prelude PyStr TextLib Utf8 Io Fs TarMain TarLinks TarLinksProps.
Local Open Scope nat_scope.

(** d/a.txt is a file, d/l -> a.txt and d/up -> ../h are symbolic links, h is a hard link to d/a.txt, x and y are symbolic links to each other, dir is a directory, lost is a link to nowhere. *)
Definition ms116 : list (str * entry) :=
  [(!!"d/a.txt", EFile [104; 105]%N); (!!"d/l", ESym !!"a.txt"); (!!"h", EHard !!"d/a.txt"); (!!"d/up", ESym !!"../h"); (!!"x", ESym !!"y"); (!!"y", ESym !!"./x"); (!!"dir", EOther); (!!"lost", EHard !!"d/up/no")].
Definition w116 : world := fun _ => Some [].
Notation text116 := (tgz_text (fun b => Ok b) (fun _ => Ok ms116)).
Notation empty116 := (tgz_is_empty (fun b => Ok b) (fun _ => Ok ms116)).
Example open116 : open_tgz (fun b => Ok b) (fun _ => Ok ms116) w116 !!"t.tgz" = Ok ms116.
Proof. reflexivity. Qed.
Example named116 : map (getmember ms116) [!!"d/a.txt"; !!"d/l"; !!"h"; !!"d/up"; !!"x"; !!"dir"; !!"lost"; !!"l"] = [Some 0; Some 1; Some 2; Some 3; Some 4; Some 6; Some 7; None].
Proof. vm_compute. reflexivity. Qed.
Lemma to116 : target ms116 1 0 /\ target ms116 2 0 /\ target ms116 3 2 /\ target ms116 4 5 /\ target ms116 5 4.
Proof.
  repeat split; eexists _, _;
    first [left; split; [reflexivity|]; apply sym_spec; vm_compute; reflexivity | right; split; [reflexivity|]; apply hard_spec; [cbn; lia|vm_compute; reflexivity]].
Qed.
Example follow116 : follows ms116 3 2 0.
Proof. destruct to116 as (_ & H2 & H3 & _). econstructor; [exact H3|]. econstructor; [exact H2|]. constructor. Qed.
Example named_up116 : named ms116 !!"d/up" 3.
Proof. apply getmember_spec. vm_compute. reflexivity. Qed.
Example read116 : forall limit, 2 < limit -> text116 limit decode w116 !!"t.tgz" !!"d/up" = Ok !!"hi".
Proof. intros limit L. rewrite (proj1 (C116_read _ _ limit decode w116 _ !!"d/up" ms116 open116) 3 2 0 _ _ named_up116 follow116 L eq_refl). vm_compute. reflexivity. Qed.
Example dead116 : dead_end ms116 7.
Proof.
  split; [eexists; split; [reflexivity|]; eexists; right; reflexivity|]. intros k (n & l & [(E & _)|(E & P)]); [discriminate|]. cbn in E. injection E as <- <-. apply hard_spec in P; [|cbn; lia]. vm_compute in P. discriminate.
Qed.
Example others116 : text116 10 decode w116 !!"t.tgz" !!"lost" = Raise KeyError /\ text116 10 decode w116 !!"t.tgz" !!"dir" = Raise IOError /\ text116 10 decode w116 !!"t.tgz" !!"l" = Raise KeyError /\
  text116 2 decode w116 !!"t.tgz" !!"d/up" = Raise RecursionError.
Proof. repeat split; vm_compute; reflexivity. Qed.
Lemma round116 : forall n, exists j, follows ms116 4 n j /\ (j = 4 \/ j = 5).
Proof.
  destruct to116 as (_ & _ & _ & H4 & H5). induction n as [|n IH]; [exists 4; split; [constructor|auto]|]. destruct IH as (j & F & [E|E]); subst j; [exists 5|exists 4]; (split; [|auto]); eapply follows_snoc; eassumption.
Qed.
(** C116: however deep calls may be nested, two links to each other end in RecursionError: reading a name that is in the archive need not give a text, nor an error about the archive. *)
Theorem C116_cycle : forall limit, text116 limit decode w116 !!"t.tgz" !!"x" = Raise RecursionError.
Proof.
  intros limit. destruct (round116 limit) as (j & F & _). destruct (C116_read (fun b => Ok b) (fun _ => Ok ms116) limit decode w116 !!"t.tgz" !!"x" ms116 open116) as (_ & _ & _ & _ & A).
  apply (A 4 j); [apply getmember_spec; vm_compute; reflexivity|exact F].
Qed.
(** C116: is_empty of a file in a .tar.gz does not tell whether the text is empty: it says yes for links. *)
Theorem C116_is_empty_refuted : ~ forall gunzip untar limit w p name t, tgz_text gunzip untar limit decode w p name = Ok t -> exists e, tgz_is_empty gunzip untar w p name = Ok e /\ (e = true <-> t = []).
Proof.
  intros H. destruct (H (fun b => Ok b) (fun _ => Ok ms116) 10 w116 !!"t.tgz" !!"d/up" !!"hi") as (e & E & I); [apply read116; lia|]. vm_compute in E. injection E as <-. assert (X := proj1 I eq_refl). vm_compute in X. discriminate X.
Qed.
(** normalised names, as os.path documents them *)
Example normpath116 : map normpath [!!"a//b/./c/"; !!"a/../../b"; !!"/../a"; !!"//a"; !!"///a"; !!""; !!"a/.."] = [!!"a/b/c"; !!"../b"; !!"/a"; !!"//a"; !!"/a"; !!"."; !!"."] /\
  map dirname [!!"a/b"; !!"a"; !!"/a"; !!"a//b"; !!"a/b/"; !!"//a"] = [!!"a"; !!""; !!"/"; !!"a"; !!"a/b"; !!"//"].
Proof. split; vm_compute; reflexivity. Qed.
Print Assumptions C116_read.
Print Assumptions C116_cases.
Print Assumptions C116_hard_links.
Print Assumptions C116_is_empty.
Print Assumptions C116_without_links.
Print Assumptions C116_cycle.
Print Assumptions C116_is_empty_refuted.
