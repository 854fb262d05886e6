(** * C103: an example, and what does not hold *)
From Verif Require Import Prelude PyStr TextLib Params Fs FsProofs Mains MainsProofs MainsWitness Races RacesProps.

Lemma unblocked_search fs q : wf_fs fs -> (search fs q = Ok tt \/ search fs q = Raise FileNotFoundError) -> unblocked fs q.
Proof.
  intros W H. assert (S := search_spec fs q W). destruct (search fs q) as [u|e].
  - intros d B (k & L & N). rewrite (dir_all_above _ _ W S d B) in L. congruence.
  - destruct S as [(_ & _ & S)|(-> & _)]; [exact S|]. destruct H; discriminate.
Qed.
(** Two processes want the same empty directory, which is not there yet.  One of them may be told that it is not a directory, although it is. *)
Theorem C103_same_empty_refuted : ~ (forall fs c d schedule fs' ps, wf_fs fs -> look fs d = Some KDir -> look fs (c :: d) = None ->
  run fs (launch [[EmptyCall (c :: d)]; [EmptyCall (c :: d)]]) schedule = (fs', ps) -> forall i e, nth_error ps i <> Some (Failed e)).
Proof.
  intros H. specialize (H [] !!"out" [] [0; 1; 0; 0; 1]). assert (W : wf_fs []) by wf_files. specialize (H _ _ W eq_refl eq_refl eq_refl 1 ParameterError). apply H. vm_compute. reflexivity.
Qed.
(** Or both get it, so that neither has it for itself. *)
Theorem C103_exclusive_refuted : ~ (forall fs c d schedule fs' ps, wf_fs fs -> look fs d = Some KDir -> look fs (c :: d) = None ->
  run fs (launch [[EmptyCall (c :: d)]; [EmptyCall (c :: d)]]) schedule = (fs', ps) -> ~ (nth_error ps 0 = Some (Running []) /\ nth_error ps 1 = Some (Running []))).
Proof.
  intros H. specialize (H [] !!"out" [] [0; 1; 0; 1; 0; 1; 1]). assert (W : wf_fs []) by wf_files. specialize (H _ _ W eq_refl eq_refl eq_refl). apply H. vm_compute. auto.
Qed.

(** Three processes: the first wants an empty directory for itself and writes a file into it; the others share directories and a checkpoint. *)
Definition fs103 : list (list str * fnode) := [([!!"data"], KDir); ([!!"old"; !!"data"], KFile [1%N]); ([!!"run"], KDir)].
Definition programs103 : list (list call) :=
  [[EmptyCall [!!"mine"; !!"run"]; FileCall [!!"f"; !!"mine"; !!"run"] [7%N]; SetCall [!!"done"; !!"ck"; !!"run"]];
   [DirCall [!!"b"; !!"a"; !!"shared"]; FileCall [!!"old"; !!"data"] [8%N]; SetCall [!!"done"; !!"ck"; !!"run"]];
   [DirCall [!!"c"; !!"b"; !!"a"; !!"shared"]; DirCall [!!"b"; !!"a"; !!"shared"]; FileCall [!!"g"; !!"c"; !!"b"; !!"a"; !!"shared"] [9%N]]].
Lemma wf103 : wf_fs fs103. Proof. wf_files. Qed.
Ltac each H := repeat (destruct H as [<-|H]; [|try contradiction]); try contradiction.
Ltac not_below := rewrite <- at_or_below_spec; vm_compute; discriminate.
Lemma peaceful103 : peaceful fs103 programs103.
Proof.
  split.
  - intros p c Hp Hc. unfold programs103 in Hp. each Hp; each Hc; (apply unblocked_search; [exact wf103|]; vm_compute; auto).
  - intros p c Hp Hc M. unfold programs103 in Hp. each Hp; each Hc; cbn [makes_file] in M; try contradiction; (split; [discriminate|]; unfold free; vm_compute; eauto).
  - intros p c p' c' Hp Hc Hp' Hc' M. unfold programs103 in Hp, Hp'. each Hp; each Hc; cbn [makes_file] in M; try contradiction; each Hp'; each Hc'; not_below.
  - intros p q Hp Hc x. unfold programs103 in Hp. each Hp; simpl in Hc; repeat (destruct Hc as [Hc|Hc]; [inversion Hc; subst; clear Hc|]); try contradiction.
    match goal with |- look fs103 ?p = None => change (find_path fs103 p = None); destruct (find_path fs103 p) as [k|] eqn:F; [|reflexivity]; assert (In_ : exists v, In (p, v) fs103) by (apply find_path_in; congruence) end.
    exfalso. destruct In_ as (v & In_). simpl in In_. repeat (destruct In_ as [In_|In_]; [discriminate In_|]). exact In_.
  - intros p l q r c Hp E Hc. unfold programs103 in Hp. each Hp; (destruct l as [|? [|? [|? [|? ?]]]]; inversion E; subst; simpl in Hc; try contradiction).
  - intros i j p p' q c N Hi Hj Hq Hc. destruct i as [|[|[|i]]]; simpl in Hi; try (destruct i; discriminate); injection Hi as <-; simpl in Hq; repeat (destruct Hq as [Hq|Hq]; [inversion Hq; subst; clear Hq|]); try contradiction.
    destruct j as [|[|[|j]]]; simpl in Hj; try (destruct j; discriminate); try congruence; injection Hj as <-; simpl in Hc; each Hc; not_below.
Qed.
Example C103_example : wf_fs fs103 /\ peaceful fs103 programs103 /\ map (fun p => list_sum (map steps p)) programs103 = [30; 28; 41].
Proof. split; [exact wf103|]. split; [exact peaceful103|vm_compute; reflexivity]. Qed.
