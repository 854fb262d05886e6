(** * Property C90: tar_gz_to_zip, from the command line to the file system *)
From Verif Require Import Prelude PyStr TextLib Utf8 Params Fs FsProofs FsProps Io IoProps KeyValue KeyValueProps Scripts ScriptsProps Mains MainsProofs TarMain.

(** ** Specification *)
(** The argument names the file [name] in the directory [d]: it is [name] after nothing or after a path ending in a slash. *)
Definition argument (cwd : list str) (dir name : str) (d : list str) : Prop :=
  (dir = [] \/ exists x, dir = x ++ [slash]) /\ ~ In 0%N dir /\ denotes cwd dir d /\ proper name.
(** The output's name: the extension .tar, .tgz or tar.gz (sic) is replaced by .zip, other names get .zip appended. *)
Inductive zip_named : str -> str -> Prop :=
| zn_tar b : zip_named (b ++ !!".tar") (b ++ !!".zip")
| zn_tgz b : zip_named (b ++ !!".tgz") (b ++ !!".zip")
| zn_tar_gz b : zip_named (b ++ !!"tar.gz") (b ++ !!".zip")
| zn_other n : (forall b, n <> b ++ !!".tar") -> (forall b, n <> b ++ !!".tgz") -> (forall b, n <> b ++ !!"tar.gz") -> zip_named n (n ++ !!".zip").
(** The file members that are not too large. *)
Inductive transferred (cutoff : option N) : list (str * kind) -> archive -> Prop :=
| tr_nil : transferred cutoff [] []
| tr_file n b ms a : (forall c, cutoff = Some c -> (N.of_nat (length b) <= c)%N) -> transferred cutoff ms a -> transferred cutoff ((n, TFile b) :: ms) ((n, b) :: a)
| tr_large n b c ms a : cutoff = Some c -> (c < N.of_nat (length b))%N -> transferred cutoff ms a -> transferred cutoff ((n, TFile b) :: ms) a
| tr_no_file n k ms a : (forall b, k <> TFile b) -> transferred cutoff ms a -> transferred cutoff ((n, k) :: ms) a.
(** The file at [q] is a complete zip file with the entries [a]. *)
Definition zip_at (ZC : zip_codec) (fs : list (list str * fnode)) (q : list str) (a : archive) : Prop := exists b, look fs q = Some (KFile b) /\ unzip ZC b = Ok a.

(** The name of a member is relative and has no empty, "." or ".." parts; unpacked in [cwd] it lies at [q]. *)
Definition lies_at (cwd : list str) (n : str) (q : list str) : Prop :=
  exists parts, parts <> [] /\ Forall proper parts /\ n = py_join [slash] parts /\ q = rev parts ++ cwd.
(** Files and directories with different plain names can be unpacked: nothing in the archive or on the disk is in their way, and they do not hit the output or the tar file. *)
Definition unpackable (cwd : list str) (fs : list (list str * fnode)) (out tar : list str) (ms : list (str * kind)) : Prop :=
  NoDup (map fst ms) /\
  (forall n k, In (n, k) ms -> k <> TOther /\ (exists b, encode n = Ok b) /\ exists q, lies_at cwd n q /\ ~ below out q /\ q <> tar /\
     (forall r, below r (tl q) -> look fs r = None \/ look fs r = Some KDir) /\
     (k = TDir -> look fs q = None \/ look fs q = Some KDir) /\ (k <> TDir -> look fs q = None \/ exists b, look fs q = Some (KFile b))) /\
  (forall n b n' k' q q', In (n, TFile b) ms -> In (n', k') ms -> lies_at cwd n q -> lies_at cwd n' q' -> below q q' -> q = q').
(** [r] is a directory above a member. *)
Definition above (cwd : list str) (ms : list (str * kind)) (r : list str) : Prop := exists n k q, In (n, k) ms /\ lies_at cwd n q /\ below r (tl q).
(** The file members with their contents. *)
Inductive files_of : list (str * kind) -> archive -> Prop :=
| fi_nil : files_of [] []
| fi_file n b ms a : files_of ms a -> files_of ((n, TFile b) :: ms) ((n, b) :: a).

Section P.
Notation fsys := (list (list str * fnode)) (only parsing).
Variable cwd : list str.
Variable ZC : zip_codec.
Variable torn : bytes.
Variable untar : bytes -> res (list (str * kind) * option exn).
Hypothesis cwd_proper : Forall proper cwd.
Notation tar_main := (tar_main cwd ZC torn untar).
Notation zip_at := (zip_at ZC).

Lemma zip_named_output n n' : zip_named n n' <-> output_name n = n'.
Proof.
  clear. destruct (C75_output_name n) as (_ & _ & _). split.
  - intros [b|b|b|m H1 H2 H3].
    + apply (C75_output_name b).
    + apply (C75_output_name b).
    + unfold output_name. destruct (ends_with (b ++ !!"tar.gz") !!".tar") eqn:E1; [|destruct (ends_with (b ++ !!"tar.gz") !!".tgz") eqn:E2].
      * apply ends_with_spec in E1. destruct E1 as (a & E1). change (!!"tar.gz") with (!!"tar.g" ++ !!"z") in E1. change (!!".tar") with (!!".ta" ++ !!"r") in E1. rewrite !app_assoc in E1. apply app_inj_tail in E1. destruct E1 as (_ & E1). vm_compute in E1. discriminate.
      * apply ends_with_spec in E2. destruct E2 as (a & E2). change (!!"tar.gz") with (!!"tar" ++ !!"." ++ !!"g" ++ !!"z") in E2. change (!!".tgz") with (!!"." ++ !!"t" ++ !!"g" ++ !!"z") in E2. rewrite !app_assoc in E2. apply app_inj_tail in E2. destruct E2 as (E2 & _). apply app_inj_tail in E2. destruct E2 as (E2 & _). apply app_inj_tail in E2. destruct E2 as (_ & E2). vm_compute in E2. discriminate.
      * assert (ends_with (b ++ !!"tar.gz") !!"tar.gz" = true) as -> by (apply ends_with_spec; eauto). now rewrite cut_app.
    + now apply (proj2 (proj2 (C75_output_name m))).
  - intros <-. assert (C : forall ext, ends_with n ext = true -> n = firstn (length n - length ext) n ++ ext).
    { intros ext E. apply ends_with_spec in E. destruct E as (a & ->). now rewrite cut_app. }
    unfold output_name. destruct (ends_with n !!".tar") eqn:E1; [rewrite (C _ E1) at 1; apply zn_tar|]. destruct (ends_with n !!".tgz") eqn:E2; [rewrite (C _ E2) at 1; apply zn_tgz|].
    destruct (ends_with n !!"tar.gz") eqn:E3; [rewrite (C _ E3) at 1; apply zn_tar_gz|].
    apply zn_other; intros b ->; [enough (ends_with (b ++ !!".tar") !!".tar" = true) by congruence|enough (ends_with (b ++ !!".tgz") !!".tgz" = true) by congruence|enough (ends_with (b ++ !!"tar.gz") !!"tar.gz" = true) by congruence]; apply ends_with_spec; eauto.
Qed.
Lemma split_app c m q : py_split c (m ++ c :: q) = py_split c m ++ py_split c q.
Proof.
  clear. assert (E : m ++ c :: q = py_join [c] (py_split c m ++ py_split c q)).
  { assert (J : forall l1 l2 : list str, l1 <> [] -> l2 <> [] -> py_join [c] (l1 ++ l2) = py_join [c] l1 ++ [c] ++ py_join [c] l2).
    { induction l1 as [|x l1 IH]; intros l2 N1 N2; [congruence|]. destruct l1 as [|y l1].
      - destruct l2 as [|z l2]; [congruence|]. reflexivity.
      - change (py_join [c] ((x :: y :: l1) ++ l2)) with (x ++ [c] ++ py_join [c] ((y :: l1) ++ l2)). rewrite IH by (discriminate || assumption). change (py_join [c] (x :: y :: l1)) with (x ++ [c] ++ py_join [c] (y :: l1)). now rewrite <- !app_assoc. }
    rewrite J by apply py_split_nonnil. now rewrite !py_split_join. }
  rewrite E. apply py_join_split.
  - intros N. apply app_eq_nil in N. destruct N as (N & _). now apply py_split_nonnil in N.
  - intros p I. apply in_app_or in I. destruct I as [I|I]; now apply py_split_parts in I.
Qed.
Lemma walk_app a b : forall q, walk_comps q (a ++ b) = walk_comps (walk_comps q a) b.
Proof. clear. induction a as [|c a IH]; intros q; [reflexivity|]. cbn [app walk_comps]. destruct (str_eqb c [] || str_eqb c !!"."); [apply IH|]. destruct (str_eqb c !!".."); apply IH. Qed.
Lemma walk_one q c : proper c -> walk_comps q [c] = c :: q.
Proof. clear. intros P. exact (walk_comps_all q [c] (Forall_cons _ P (Forall_nil _))). Qed.
Lemma no_nul s : ~ In 0%N s -> existsb (N.eqb 0) s = false.
Proof. clear. intros H. destruct (existsb (N.eqb 0) s) eqn:E; [|reflexivity]. apply existsb_exists in E. destruct E as (x & I & E). apply N.eqb_eq in E. now subst. Qed.
Lemma resolve_child dir name d : argument cwd dir name d -> forall c, proper c -> resolve cwd (dir ++ c) = Ok (c :: d).
Proof.
  intros (Dr & Nd & Dn & _) c P. assert (R : resolve cwd dir = Ok d) by (apply (C80_resolution cwd dir d cwd_proper); auto). unfold resolve in *. rewrite (no_nul dir Nd) in R. injection R as R.
  assert (N : ~ In 0%N (dir ++ c)) by (intros I; apply in_app_or in I; destruct I as [I|I]; [auto|exact (proj2 (proj2 (proj2 (proj2 P))) I)]). rewrite (no_nul _ N). f_equal. clear N Dn Nd cwd_proper. destruct Dr as [->|(x & ->)].
  - cbn [app] in *. change (py_split slash []) with [@nil N] in R. cbn in R. subst d. assert (E : match c with ch :: _ => if (ch =? slash)%N then [] else cwd | [] => cwd end = cwd).
    { destruct c as [|ch c]; [reflexivity|]. destruct (N.eqb_spec ch slash) as [->|_]; [|reflexivity]. exfalso. apply (proj1 (proj2 (proj2 (proj2 P)))). now left. }
    rewrite E, py_split_no by apply P. now apply walk_one.
  - rewrite <- app_assoc. cbn [app]. rewrite split_app, walk_app, (py_split_no slash c) by apply P. rewrite split_app, walk_app in R. change (py_split slash []) with [@nil N] in R. cbn [walk_comps str_eqb orb] in R.
    rewrite walk_one by assumption. f_equal. rewrite <- R. destruct x; reflexivity.
Qed.
Lemma output_child dir name : (dir = [] \/ exists x, dir = x ++ [slash]) -> output_name (dir ++ name) = dir ++ output_name name.
Proof.
  clear. intros D. apply zip_named_output. assert (Z := proj2 (zip_named_output name _) eq_refl).
  assert (G : forall b ext, ~ In slash ext -> dir ++ name = b ++ ext -> exists b', name = b' ++ ext).
  { intros b ext Ne E. destruct (app_eq_app _ _ _ _ E) as (l & [(E1 & E2)|(E1 & E2)]); [|eauto]. destruct l as [|y l] using rev_ind; [exists []; now rewrite E2|]. clear IHl.
    exfalso. apply Ne. rewrite E2. apply in_or_app. left. apply in_or_app. right. destruct D as [->|(x & ->)]; [destruct b; [destruct l; discriminate|discriminate]|]. rewrite app_assoc in E1. apply app_inj_tail in E1. destruct E1 as (_ & ->). now left. }
  destruct Z as [b|b|b|n H1 H2 H3]; rewrite ?app_assoc; [apply zn_tar|apply zn_tgz|apply zn_tar_gz|].
  apply zn_other; intros b E; apply G in E; try (vm_compute; intuition discriminate); destruct E as (b' & E); [now apply (H1 b')|now apply (H2 b')|now apply (H3 b')].
Qed.
Lemma output_proper name : proper name -> proper (output_name name) /\ output_name name <> name.
Proof.
  clear. intros (_ & _ & _ & Ns & Nz). assert (Z := proj2 (zip_named_output name _) eq_refl). revert Z. generalize (output_name name). intros n' Z.
  assert (G : forall b, (forall c, In c b -> In c name) -> n' = b ++ !!".zip" -> proper n').
  { intros b H ->. split; [destruct b; discriminate|]. split; [intros E; apply (f_equal (@length N)) in E; rewrite app_length in E; simpl in E; lia|]. split; [intros E; apply (f_equal (@length N)) in E; rewrite app_length in E; simpl in E; lia|].
    split; intros I; apply in_app_or in I; destruct I as [I|I]; try (apply H in I; auto; fail); vm_compute in I; intuition discriminate. }
  destruct Z as [b|b|b|n H1 H2 H3].
  - split; [apply (G b); auto; intros; apply in_or_app; now left|]. intros E. apply app_inv_head in E. vm_compute in E. discriminate.
  - split; [apply (G b); auto; intros; apply in_or_app; now left|]. intros E. apply app_inv_head in E. vm_compute in E. discriminate.
  - split; [apply (G b); auto; intros; apply in_or_app; now left|]. intros E. apply app_inv_head in E. vm_compute in E. discriminate.
  - split; [apply (G n); auto|]. intros E. apply (f_equal (@length N)) in E. rewrite app_length in E. simpl in E. lia.
Qed.
(** ** The file system *)
Lemma look_removed fs q r : look (filter (fun e => negb (rpath_eqb (fst e) q)) fs) r = if rpath_eqb r q then match r with [] => Some KDir | _ => None end else look fs r.
Proof.
  clear. destruct r as [|c r]; [destruct (rpath_eqb [] q); reflexivity|]. unfold look. rewrite (find_filter fs (fun k => negb (rpath_eqb k q))). now destruct (rpath_eqb (c :: r) q).
Qed.
Lemma removed_wf fs c d : wf_fs fs -> look fs (c :: d) <> Some KDir -> wf_fs (filter (fun e => negb (rpath_eqb (fst e) (c :: d))) fs).
Proof.
  clear. intros W N x r k. rewrite !look_removed. destruct (rpath_eqb_spec (x :: r) (c :: d)) as [_|_]; [discriminate|]. intros L. apply W in L. destruct (rpath_eqb_spec r (c :: d)) as [->|_]; [congruence|assumption].
Qed.
(** The run up to the opened zip file. *)
Definition opened (fs : fsys) (q : list str) : fsys := set_node (if exists_ fs q then fst (os_remove fs q) else fs) q torn.
Lemma opened_look fs c d r : look (opened fs (c :: d)) r = if rpath_eqb (c :: d) r then Some (KFile torn) else look fs r.
Proof.
  clear. unfold opened. rewrite look_set by discriminate. destruct (rpath_eqb_spec (c :: d) r) as [E|N]; [reflexivity|]. destruct (exists_ fs (c :: d)); [|reflexivity]. unfold os_remove. destruct (look fs (c :: d)) as [[b| |]|]; try reflexivity.
  - cbn [fst]. rewrite look_removed. destruct (rpath_eqb_spec r (c :: d)); [congruence|reflexivity].
  - cbn [fst]. rewrite look_removed. destruct (rpath_eqb_spec r (c :: d)); [congruence|reflexivity].
Qed.
Lemma opened_wf fs c d : wf_fs fs -> look fs d = Some KDir -> look fs (c :: d) <> Some KDir -> wf_fs (opened fs (c :: d)).
Proof.
  clear. intros W D N x r k. rewrite !opened_look. destruct (rpath_eqb_spec (c :: d) r) as [<-|N1].
  - destruct (rpath_eqb_spec (c :: d) (x :: c :: d)) as [E|_]; [apply (f_equal (@length _)) in E; simpl in E; lia|]. intros L. apply W in L. congruence.
  - destruct (rpath_eqb_spec (c :: d) (x :: r)) as [E|_]; [injection E as -> ->; intros _; assumption|]. apply W.
Qed.
Lemma run_opened fs dir name d dont cutoff : wf_fs fs -> argument cwd dir name d -> look fs d = Some KDir -> look fs (output_name name :: d) <> Some KDir ->
  tar_main (dir ++ name) dont cutoff fs =
    let q := output_name name :: d in let fs2 := opened fs q in let close f a := set_node f q (dozip ZC [] a) in
    match look fs2 (name :: d) with
    | None => (close fs2 [], Some FileNotFoundError)
    | Some (KFile b) => match untar b with
                        | Raise e => (close fs2 [], Some e)
                        | Ok (ms, damage) => if dont then
                    match extract_all cwd fs2 ms with
                    | (fs3, Some e) => (close fs3 [], Some e)
                    | (fs3, None) => match damage with
                                     | Some e => (close fs3 [], Some e)
                                     | None => let '(fs4, a, e) := pack cwd fs3 [] ms in (close fs4 a, e)
                                     end
                    end
                  else
                    match tar_to_zip cutoff (map as_member ms) with
                    | (a, Some e) => (close fs2 a, Some e)
                    | (a, None) => (close fs2 a, damage)
                    end
                        end
    | Some _ => (close fs2 [], Some IOError)
    end.
Proof.
  intros W A D N. assert (A' := A). destruct A as (Dr & _ & _ & P). destruct (output_proper name P) as (Po & _). unfold TarMain.tar_main. rewrite (output_child dir name Dr), (resolve_child dir name d A' _ Po).
  assert (Wd : wf_fs (if exists_ fs (output_name name :: d) then fst (os_remove fs (output_name name :: d)) else fs)).
  { destruct (exists_ fs (output_name name :: d)); [|assumption]. unfold os_remove. destruct (look fs (output_name name :: d)) as [[b| |]|] eqn:L; try assumption; (apply removed_wf; [assumption|congruence]). }
  assert (E : exists fs1, (if exists_ fs (output_name name :: d) then os_remove fs (output_name name :: d) else (fs, None)) = (fs1, None) /\ fs1 = (if exists_ fs (output_name name :: d) then fst (os_remove fs (output_name name :: d)) else fs) /\ look fs1 (output_name name :: d) = None /\ look fs1 d = Some KDir).
  { unfold exists_, os_remove. destruct (look fs (output_name name :: d)) as [[b| |]|] eqn:L; [|congruence| |]; eexists; (split; [reflexivity|]; split; [reflexivity|]; cbn [fst]); try (rewrite !look_removed; destruct (rpath_eqb_spec (output_name name :: d) (output_name name :: d)); [|congruence]; split; [reflexivity|]; destruct (rpath_eqb_spec d (output_name name :: d)) as [E|_]; [apply (f_equal (@length _)) in E; simpl in E; lia|assumption]). split; assumption. }
  destruct E as (fs1 & -> & E & L1 & D1). rewrite <- E in Wd. unfold can_create. assert (S1 := search_spec fs1 d Wd). destruct (search fs1 d) as [u|e]; [|exfalso; destruct S1 as [(_ & B & _)|(_ & d' & B & (k & K & NK))]; [congruence|rewrite (dir_all_above _ _ Wd D1 d' B) in K; congruence]].
  cbn [bind]. rewrite L1. unfold opened. rewrite <- E. unfold open_tar. assert (is_nil (dir ++ name) = false) as -> by (destruct P as (P & _); destruct dir; [destruct name; [congruence|reflexivity]|reflexivity]).
  rewrite (resolve_child dir name d A' name P). cbn [bind]. cbv zeta. destruct (look (set_node fs1 (output_name name :: d) torn) (name :: d)) as [[b| |]|]; reflexivity.
Qed.

(** ** Streaming *)
Lemma closed_zip fs q c d a : q = c :: d -> zip_ok a -> zip_at (set_node fs q (dozip ZC [] a)) q a.
Proof. clear. intros -> Z. exists (dozip ZC [] a). split; [apply look_set_same; discriminate|now apply unzip_dozip]. Qed.
Lemma closed_other fs c d a r : r <> c :: d -> look (set_node (opened fs (c :: d)) (c :: d) (dozip ZC [] a)) r = look fs r.
Proof. clear. intros N. rewrite look_set_other by congruence. rewrite opened_look. destruct (rpath_eqb_spec (c :: d) r); [congruence|reflexivity]. Qed.
Lemma copies_transferred cutoff ms : forall a, copies cutoff (map as_member ms) a -> transferred cutoff ms a.
Proof.
  clear. induction ms as [|(n, k) ms IH]; intros a C; inversion C as [|m b ms' a' (F & D & L) C' E1 E2|m ms' a' F C' E1 E2]; subst; [constructor| |].
  - destruct k as [b'| |]; [|discriminate|discriminate]. injection D as ->. apply tr_file; [assumption|]. now apply IH.
  - destruct k as [b'| |]; [|apply tr_no_file; [discriminate|now apply IH]|apply tr_no_file; [discriminate|now apply IH]].
    destruct cutoff as [c|]; [|exfalso; apply (F b'); split; [reflexivity|]; split; [reflexivity|discriminate]].
    destruct (N.leb_spec (N.of_nat (length b')) c) as [Le|Lt]; [exfalso; apply (F b'); split; [reflexivity|]; split; [reflexivity|]; intros c' E; injection E as <-; assumption|].
    apply (tr_large _ n b' c); [reflexivity|assumption|now apply IH].
Qed.
Lemma transferred_ok cutoff ms a : (forall n b, In (n, TFile b) ms -> n <> [] /\ name_ok n) -> transferred cutoff ms a -> zip_ok a.
Proof.
  clear. intros G T. induction T as [|n b ms a L T IH|n b c ms a E L T IH|n k ms a K T IH].
  - intros n b [].
  - intros n' b' [E|I]; [injection E as <- <-; apply (G n b); now left|]. apply (IH (fun n b I => G n b (or_intror I)) n' b' I).
  - apply IH. intros n' b' I. apply (G n' b'). now right.
  - apply IH. intros n' b' I. apply (G n' b'). now right.
Qed.
(** C90: the zip file beside the tar file gets exactly the file members that are not too large, in their order; nothing else changes.  If the tar file is damaged after
    some members, those are in the zip file and the error is raised. *)
Theorem C90_stream : forall fs dir name d out b ms damage cutoff, wf_fs fs -> argument cwd dir name d -> zip_named name out ->
  look fs (name :: d) = Some (KFile b) -> look fs (out :: d) <> Some KDir -> untar b = Ok (ms, damage) -> (forall n b, In (n, TFile b) ms -> n <> [] /\ name_ok n) ->
  exists fs' a, tar_main (dir ++ name) false cutoff fs = (fs', damage) /\ transferred cutoff ms a /\ zip_at fs' (out :: d) a /\ forall r, r <> out :: d -> look fs' r = look fs r.
Proof.
  intros fs dir name d out b ms damage cutoff W A Zn L No U G. apply zip_named_output in Zn. subst out. assert (D : look fs d = Some KDir) by exact (W _ _ _ L).
  rewrite (run_opened fs dir name d false cutoff W A D No). cbv zeta. rewrite opened_look. destruct (output_proper name) as (_ & No'); [apply A|]. destruct (rpath_eqb_spec (output_name name :: d) (name :: d)) as [E|_]; [congruence|]. rewrite L, U.
  destruct (C75_tar cutoff (map as_member ms)) as (a & E & C).
  { intros m I F. apply in_map_iff in I. destruct I as ((n & k) & <- & I). destruct k as [b'| |]; [|discriminate|discriminate]. cbn. split; [eauto|]. exact (G n b' I). }
  rewrite E. apply copies_transferred in C. exists (set_node (opened fs (output_name name :: d)) (output_name name :: d) (dozip ZC [] a)), a. split; [reflexivity|]. split; [assumption|].
  split; [eapply closed_zip; [reflexivity|now apply (transferred_ok cutoff ms)]|]. intros r N. now apply closed_other.
Qed.
(** An existing output is removed before the tar file is opened: without the tar file, or if it is no tar file, it is replaced by an empty zip file. *)
Theorem C90_no_tar : forall fs dir name d out dont cutoff e, wf_fs fs -> argument cwd dir name d -> zip_named name out -> look fs d = Some KDir -> look fs (out :: d) <> Some KDir ->
  look fs (name :: d) = None /\ e = FileNotFoundError \/ look fs (name :: d) = Some KDir /\ e = IOError \/ (exists b, look fs (name :: d) = Some (KFile b) /\ untar b = Raise e) ->
  exists fs', tar_main (dir ++ name) dont cutoff fs = (fs', Some e) /\ zip_at fs' (out :: d) [] /\ forall r, r <> out :: d -> look fs' r = look fs r.
Proof.
  intros fs dir name d out dont cutoff e W A Zn D No H. apply zip_named_output in Zn. subst out. rewrite (run_opened fs dir name d dont cutoff W A D No). cbv zeta. rewrite opened_look.
  destruct (output_proper name) as (_ & No'); [apply A|]. destruct (rpath_eqb_spec (output_name name :: d) (name :: d)) as [E|_]; [congruence|].
  exists (set_node (opened fs (output_name name :: d)) (output_name name :: d) (dozip ZC [] [])). split; [destruct H as [(-> & ->)|[(-> & ->)|(b & -> & ->)]]; reflexivity|].
  split; [eapply closed_zip; [reflexivity|intros n b []]|]. intros r N. now apply closed_other.
Qed.
(** A directory with the output's name, or a missing directory: an error, and nothing changes. *)
Theorem C90_blocked : forall fs dir name d out dont cutoff, wf_fs fs -> argument cwd dir name d -> zip_named name out -> look fs (out :: d) = Some KDir \/ look fs d = None ->
  exists e, tar_main (dir ++ name) dont cutoff fs = (fs, Some e).
Proof.
  intros fs dir name d out dont cutoff W A Zn H. apply zip_named_output in Zn. subst out. assert (A' := A). destruct A as (Dr & _ & _ & P). destruct (output_proper name P) as (Po & _). unfold TarMain.tar_main. rewrite (output_child dir name Dr), (resolve_child dir name d A' _ Po).
  unfold exists_, os_remove. destruct H as [H|H]; [rewrite H; eauto|]. assert (look fs (output_name name :: d) = None) as -> by (destruct (look fs (output_name name :: d)) eqn:E; [apply W in E; congruence|reflexivity]).
  unfold can_create. assert (S1 := search_spec fs d W). destruct (search fs d) as [u|e]; [congruence|]. eexists. reflexivity.
Qed.
(** A member whose name zip files cannot hold: the members before it are in the zip file. *)
Theorem C90_bad_name : forall fs dir name d out b l1 n data l2 damage cutoff, wf_fs fs -> argument cwd dir name d -> zip_named name out ->
  look fs (name :: d) = Some (KFile b) -> look fs (out :: d) <> Some KDir -> untar b = Ok (l1 ++ (n, TFile data) :: l2, damage) -> (forall n b, In (n, TFile b) l1 -> n <> [] /\ name_ok n) ->
  ~ In 0%N n -> (forall b, encode n <> Ok b) -> (forall c, cutoff = Some c -> (N.of_nat (length data) <= c)%N) ->
  exists fs' a e, tar_main (dir ++ name) false cutoff fs = (fs', Some e) /\ transferred cutoff l1 a /\ zip_at fs' (out :: d) a /\ forall r, r <> out :: d -> look fs' r = look fs r.
Proof.
  intros fs dir name d out b l1 n data l2 damage cutoff W A Zn L No U G Nz En Cut. apply zip_named_output in Zn. subst out. assert (D : look fs d = Some KDir) by exact (W _ _ _ L).
  rewrite (run_opened fs dir name d false cutoff W A D No). cbv zeta. rewrite opened_look. destruct (output_proper name) as (_ & No'); [apply A|]. destruct (rpath_eqb_spec (output_name name :: d) (name :: d)) as [E|_]; [congruence|]. rewrite L, U.
  destruct (C75_tar cutoff (map as_member l1)) as (a & E & C).
  { intros m I F. apply in_map_iff in I. destruct I as ((n' & k) & <- & I). destruct k as [b'| |]; [|discriminate|discriminate]. cbn. split; [eauto|]. exact (G n' b' I). }
  assert (T : exists e, tar_to_zip cutoff (map as_member (l1 ++ (n, TFile data) :: l2)) = (a, Some e)).
  { revert E. unfold tar_to_zip. rewrite map_app. generalize (@nil (str * bytes)). generalize (map as_member l1). clear -Nz En Cut. intros l. induction l as [|m l IH]; intros acc E.
    - injection E as <-. cbn [map app as_member m_isfile m_data m_name fst snd]. assert ((match cutoff with Some c => (c <? N.of_nat (length data))%N | None => false end) = false) as ->.
      { destruct cutoff as [c|]; [|reflexivity]. apply N.ltb_ge. auto. }
      unfold writestr. rewrite zip_name_id by assumption. unfold zappend. rewrite zip_name_id by assumption. destruct n as [|x n]; [eexists; reflexivity|]. destruct (encode (x :: n)) as [b'|e] eqn:Ec; [exfalso; now apply (En b')|]. eexists. reflexivity.
    - cbn [app]. destruct (m_isfile m), (m_data m) as [b'|]; try (apply IH; exact E); [|discriminate E]. destruct (match cutoff with Some c => (c <? N.of_nat (length b'))%N | None => false end); [apply IH; exact E|].
      destruct (writestr acc (m_name m) b') as [a'|e]; [apply IH; exact E|discriminate E]. }
  destruct T as (e & ->). apply copies_transferred in C. exists (set_node (opened fs (output_name name :: d)) (output_name name :: d) (dozip ZC [] a)), a, e. split; [reflexivity|]. split; [assumption|].
  split; [eapply closed_zip; [reflexivity|now apply (transferred_ok cutoff l1)]|]. intros r N. now apply closed_other.
Qed.

(** ** Unpacking *)
Lemma below_shorter (a b : list str) : below a b -> length a <= length b.
Proof. clear. intros (l & ->). rewrite app_length. lia. Qed.
Lemma tl_not_below (q : list str) : q <> [] -> ~ below q (tl q).
Proof. clear. intros N B. apply below_shorter in B. destruct q; [congruence|]. simpl in B. lia. Qed.
Lemma below_tl r (q : list str) : below r (tl q) -> below r q.
Proof. clear. destruct q; [auto|]. apply below_cons. Qed.
Lemma lies_nonnil n q : lies_at cwd n q -> q <> [].
Proof. clear. intros (ps & N & _ & _ & ->) E. apply app_eq_nil in E. destruct E as (E & _). apply N. rewrite <- (rev_involutive ps), E. reflexivity. Qed.
Lemma parts_split ps : ps <> [] -> Forall proper ps -> py_split slash (py_join [slash] ps) = ps.
Proof. clear. intros N F. apply py_join_split; [assumption|]. intros p I. rewrite Forall_forall in F. apply F in I. apply I. Qed.
Lemma relative ps : ps <> [] -> Forall proper ps -> match py_join [slash] ps with c :: _ => (c =? slash)%N | [] => false end = false.
Proof.
  clear. intros N F. destruct ps as [|p ps]; [congruence|]. inversion F as [|x y P _]; subst. destruct p as [|c p]; [destruct P; congruence|]. assert (c <> slash) by (intros ->; apply (proj1 (proj2 (proj2 (proj2 P)))); now left).
  destruct ps; simpl; now apply N.eqb_neq.
Qed.
Lemma lies_resolve n q : lies_at cwd n q -> resolve cwd n = Ok q.
Proof.
  clear. intros (ps & N & F & -> & ->). unfold resolve. rewrite no_nul by now apply join_no_nul. rewrite (parts_split ps N F), <- (walk_comps_all cwd ps F). f_equal. assert (R := relative ps N F). destruct (py_join [slash] ps) as [|c s]; [reflexivity|]. now rewrite R.
Qed.
Lemma lies_unique n q q' : lies_at cwd n q -> lies_at cwd n q' -> q = q'.
Proof. clear. intros H H'. apply lies_resolve in H, H'. congruence. Qed.
Lemma lies_inj n n' q : lies_at cwd n q -> lies_at cwd n' q -> n = n'.
Proof. clear. intros (ps & _ & _ & -> & ->) (ps' & _ & _ & -> & E). apply app_inv_tail in E. f_equal. rewrite <- (rev_involutive ps), E. apply rev_involutive. Qed.
Lemma lies_arcname n q : lies_at cwd n q -> arcname n = n.
Proof.
  clear. intros (ps & N & F & -> & _). unfold arcname. rewrite (parts_split ps N F). rewrite (relative ps N F).
  assert (G : forall ps acc, Forall proper ps -> norm_parts false acc ps = rev acc ++ ps).
  { clear. induction ps as [|p ps IH]; intros acc F; cbn [norm_parts]; [now rewrite app_nil_r|]. inversion F as [|x y (P1 & P2 & P3 & _) F']; subst. apply str_eqb_neq in P1, P2, P3. rewrite P1, P2, P3. cbn [orb]. rewrite (IH (p :: acc) F'). cbn [rev]. now rewrite <- app_assoc. }
  rewrite (G ps [] F). destruct ps; [congruence|reflexivity].
Qed.
(** What is where after members were unpacked. *)
Definition placed (ms : list (str * kind)) (r : list str) (v : fnode) : Prop :=
  (exists n b, In (n, TFile b) ms /\ lies_at cwd n r /\ v = KFile b) \/ v = KDir /\ (above cwd ms r \/ exists n, In (n, TDir) ms /\ lies_at cwd n r).
Definition after (fs fs' : fsys) (ms : list (str * kind)) : Prop :=
  forall r, (exists v, placed ms r v /\ look fs' r = Some v) \/ (forall v, ~ placed ms r v) /\ look fs' r = look fs r.
Definition room (fs : fsys) (m : str * kind) : Prop := exists q, lies_at cwd (fst m) q /\ snd m <> TOther /\
     (forall r, below r (tl q) -> look fs r = None \/ look fs r = Some KDir) /\
     (snd m = TDir -> look fs q = None \/ look fs q = Some KDir) /\ (snd m <> TDir -> look fs q = None \/ exists b, look fs q = Some (KFile b)).
Lemma extract_one fs m : wf_fs fs -> room fs m -> exists fs', extract cwd fs m = (fs', None) /\ wf_fs fs' /\ after fs fs' [m].
Proof.
  clear. destruct m as (n, k). intros W (q & L & K & U & Rd & Rf). cbn [fst snd] in *. unfold extract. cbn [fst snd]. rewrite (lies_resolve n q L). assert (Nq := lies_nonnil n q L).
  assert (Ub : unblocked fs (tl q)) by (intros r B (v & E & Nv); destruct (U r B); congruence).
  assert (M : exists fs1, (if exists_ fs (tl q) then (fs, Ok tt) else mkdir_p fs (tl q)) = (fs1, Ok tt) /\ made fs fs1 (tl q)).
  { unfold exists_. destruct (look fs (tl q)) as [v|] eqn:E.
    - exists fs. split; [reflexivity|]. split; [|unfold same_at; reflexivity]. apply dir_all_above; [assumption|]. destruct (U (tl q) (below_refl _)); congruence.
    - assert (S1 := mkdir_p_spec fs (tl q) W). destruct (mkdir_p fs (tl q)) as [fs1 [[]|e]]; [exists fs1; split; [reflexivity|apply S1]|]. exfalso. destruct S1 as (_ & [(_ & O)|(_ & d & B & _ & O)]); [exact (Ub _ (below_refl _) O)|exact (Ub _ B O)]. }
  destruct M as (fs1 & -> & Md). assert (W1 := made_wf _ _ _ W Md). destruct Md as (Md1 & Md2). destruct q as [|c d]; [congruence|]. cbn [tl] in *. assert (D1 : look fs1 d = Some KDir) by (apply Md1, below_refl).
  assert (Eq : look fs1 (c :: d) = look fs (c :: d)) by (apply Md2, not_below_tail).
  assert (Ab : forall r, above cwd [(n, k)] r <-> below r d).
  { intros r. split; [intros (n' & k' & q' & [E|[]] & L' & B); injection E as <- <-; rewrite <- (lies_unique n _ _ L L') in B; exact B|]. intros B. exists n, k, (c :: d). split; [now left|]. split; assumption. }
  destruct k as [b| |]; [| |congruence].
  - assert (Fr : free fs1 (c :: d)) by (unfold free; rewrite Eq; apply Rf; discriminate). rewrite (can_write_ok fs1 c d W1 D1 Fr). exists (set_node fs1 (c :: d) b). split; [reflexivity|]. split; [now apply set_wf|].
    intros r. rewrite look_set by discriminate. destruct (rpath_eqb_spec (c :: d) r) as [<-|N].
    + left. exists (KFile b). split; [|reflexivity]. left. exists n, b. split; [now left|]. split; [assumption|reflexivity].
    + destruct (at_or_below r d) eqn:B.
      * apply at_or_below_spec in B. left. exists KDir. split; [right; split; [reflexivity|]; left; now apply Ab|now apply Md1].
      * assert (~ below r d) by (intros B'; apply at_or_below_spec in B'; congruence). right. split; [|now apply Md2]. intros v [(n' & b' & [E|[]] & L' & _)|(_ & [A|(n' & [E|[]] & L')])].
        -- injection E as <- <-. apply N. exact (lies_unique n _ _ L L').
        -- now apply Ab in A.
        -- discriminate.
  - assert (S1 := search_spec fs1 d W1). assert (Se : search fs1 d = Ok tt) by (destruct (search fs1 d) as [[]|e]; [reflexivity|]; exfalso; destruct S1 as [(_ & B & _)|(_ & d' & B & (k & K' & NK))]; [congruence|rewrite (dir_all_above _ _ W1 D1 d' B) in K'; congruence]).
    unfold os_mkdir. rewrite Se. cbn [bind].
    assert (Fin : forall fs2, (forall r, look fs2 r = if rpath_eqb (c :: d) r then Some KDir else look fs1 r) -> after fs fs2 [(n, TDir)]).
    { intros fs2 H r. rewrite H. destruct (rpath_eqb_spec (c :: d) r) as [<-|N].
      - left. exists KDir. split; [|reflexivity]. right. split; [reflexivity|]. right. exists n. split; [now left|assumption].
      - destruct (at_or_below r d) eqn:B.
        + apply at_or_below_spec in B. left. exists KDir. split; [right; split; [reflexivity|]; left; now apply Ab|now apply Md1].
        + assert (~ below r d) by (intros B'; apply at_or_below_spec in B'; congruence). right. split; [|now apply Md2]. intros v [(n' & b' & [E|[]] & L' & _)|(_ & [A|(n' & [E|[]] & L')])].
          * discriminate.
          * now apply Ab in A.
          * injection E as <-. apply N. exact (lies_unique n _ _ L L'). }
    destruct (look fs1 (c :: d)) as [v|] eqn:Lq.
    + exists fs1. split; [reflexivity|]. split; [assumption|]. apply Fin. intros r. destruct (rpath_eqb_spec (c :: d) r) as [<-|N]; [|reflexivity]. destruct (Rd eq_refl); congruence.
    + exists ((c :: d, KDir) :: fs1). split; [reflexivity|]. destruct (mkdir_one fs1 c d W1 D1 Lq) as (M1 & M2). split; [eapply made_wf; [exact W1|]; split; eassumption|]. apply Fin. intros r. rewrite look_cons. destruct (rpath_eqb_spec (c :: d) r) as [<-|N]; reflexivity.
Qed.
Definition unobstructed (ms : list (str * kind)) : Prop :=
  forall n b n' k' q q', In (n, TFile b) ms -> In (n', k') ms -> lies_at cwd n q -> lies_at cwd n' q' -> below q q' -> q = q'.
Lemma extract_many ms : forall fs, wf_fs fs -> NoDup (map fst ms) -> (forall m, In m ms -> room fs m) -> unobstructed ms -> exists fs', extract_all cwd fs ms = (fs', None) /\ wf_fs fs' /\ after fs fs' ms.
Proof.
  clear. induction ms as [|m ms IH]; intros fs W ND R A; cbn [extract_all].
  - exists fs. split; [reflexivity|]. split; [assumption|]. intros r. right. split; [|reflexivity]. intros v [(n & b & [] & _)|(_ & [(n & k & q & [] & _)|(n & [] & _)])].
  - destruct (extract_one fs m W (R m (or_introl eq_refl))) as (fs1 & E & W1 & P1). rewrite E. inversion ND as [|x y Nm ND']; subst.
    assert (R1 : forall m', In m' ms -> room fs1 m').
    { intros (n', k') I. destruct (R (n', k') (or_intror I)) as (q' & L' & K' & U' & Rd' & Rf'). cbn [fst snd] in *. exists q'. cbn [fst snd]. split; [assumption|]. split; [assumption|]. assert (Nq' := lies_nonnil n' q' L').
      assert (Dist : forall k, ~ (exists q, In (n', k) [m] /\ lies_at cwd n' q)) by (intros k (q & [->|[]] & _); apply Nm; apply in_map_iff; exists (n', k'); auto).
      split; [|split].
      - intros r B. destruct (P1 r) as [(v & Pv & ->)|(_ & ->)]; [|now apply U']. destruct Pv as [(n & b & [->|[]] & L & ->)|(-> & _)]; [|now right]. exfalso.
        assert (r = q') as -> by (apply (A n b n' k' r q'); [now left|now right|assumption|assumption|now apply below_tl]). exact (tl_not_below q' Nq' B).
      - intros ->. destruct (P1 q') as [(v & Pv & ->)|(_ & ->)]; [|now apply Rd']. destruct Pv as [(n & b & J & L & ->)|(-> & _)]; [|now right]. exfalso. assert (n = n') as -> by exact (lies_inj n n' q' L L'). apply (Dist (TFile b)). exists q'. auto.
      - intros Nk. destruct (P1 q') as [(v & Pv & ->)|(_ & ->)]; [|now apply Rf']. destruct k' as [b'| |]; [|congruence|congruence]. destruct Pv as [(n & b & J & L & ->)|(-> & [(n & k & q & [->|[]] & L & B)|(n & J & L)])]; [right; eauto| |].
        + exfalso. assert (q' = q) as -> by (apply (A n' b' n k q' q); [now right|now left|assumption|assumption|now apply below_tl]). exact (tl_not_below q Nq' B).
        + exfalso. assert (n = n') as -> by exact (lies_inj n n' q' L L'). apply (Dist TDir). exists q'. auto. }
    assert (A1 : unobstructed ms) by (intros n b n' k' q q' I I'; apply (A n b n' k' q q'); now right).
    destruct (IH fs1 W1 ND' R1 A1) as (fs2 & E2 & W2 & P2). exists fs2. split; [assumption|]. split; [assumption|].
    intros r. destruct (P2 r) as [(v & Pv & Ev)|(Nv & Ev)].
    + left. exists v. split; [|assumption]. destruct Pv as [(n & b & I & L & ->)|(-> & [(n & k & q & I & L & B)|(n & I & L)])].
      * left. exists n, b. split; [now right|auto].
      * right. split; [reflexivity|]. left. exists n, k, q. split; [now right|auto].
      * right. split; [reflexivity|]. right. exists n. split; [now right|auto].
    + rewrite Ev. destruct (P1 r) as [(v & Pv & Ev1)|(Nv1 & Ev1)].
      * left. exists v. split; [|assumption]. destruct Pv as [(n & b & [->|[]] & L & ->)|(-> & [(n & k & q & [->|[]] & L & B)|(n & [->|[]] & L)])].
        -- left. exists n, b. split; [now left|auto].
        -- right. split; [reflexivity|]. left. exists n, k, q. split; [now left|auto].
        -- right. split; [reflexivity|]. right. exists n. split; [now left|auto].
      * right. split; [|assumption]. intros v [(n & b & [->|I] & L & ->)|(-> & [(n & k & q & [->|I] & L & B)|(n & [->|I] & L)])].
        -- apply (Nv1 (KFile b)). left. exists n, b. split; [now left|auto].
        -- apply (Nv (KFile b)). left. exists n, b. auto.
        -- apply (Nv1 KDir). right. split; [reflexivity|]. left. exists n, k, q. split; [now left|auto].
        -- apply (Nv KDir). right. split; [reflexivity|]. left. exists n, k, q. auto.
        -- apply (Nv1 KDir). right. split; [reflexivity|]. right. exists n. split; [now left|auto].
        -- apply (Nv KDir). right. split; [reflexivity|]. right. exists n. auto.
Qed.

Lemma lies_name_ok n q : lies_at cwd n q -> (exists b, encode n = Ok b) -> name_ok n.
Proof. clear. intros (ps & _ & F & -> & _) E. split; [now apply join_no_nul|assumption]. Qed.
Lemma files_in l : forall a, files_of l a -> forall n k, In (n, k) l -> exists b, k = TFile b /\ In (n, b) a.
Proof. clear. intros a F. induction F as [|n b l a F IH]; intros n' k I; [destruct I|]. destruct I as [E|I]; [injection E as <- <-; exists b; split; [reflexivity|now left]|]. destruct (IH n' k I) as (b' & -> & J). exists b'. split; [reflexivity|now right]. Qed.
Lemma files_from l : forall a, files_of l a -> forall n b, In (n, b) a -> In (n, TFile b) l.
Proof. clear. intros a F. induction F as [|n b l a F IH]; intros n' b' I; [destruct I|]. destruct I as [E|I]; [injection E as <- <-; now left|right; auto]. Qed.
Lemma pack_files l files : files_of l files -> forall fs a rest, NoDup (map fst l) ->
  (forall n b, In (n, TFile b) l -> (exists b', encode n = Ok b') /\ exists q, lies_at cwd n q /\ look fs q = Some (KFile b)) ->
  exists fs', pack cwd fs a (l ++ rest) = pack cwd fs' (a ++ files) rest /\ (forall n b r, In (n, TFile b) l -> lies_at cwd n r -> look fs' r = None) /\
    (forall r, (forall n b, In (n, TFile b) l -> ~ lies_at cwd n r) -> look fs' r = look fs r).
Proof.
  clear. intros F. induction F as [|n b l files F IH]; intros fs a rest ND H.
  - exists fs. rewrite app_nil_r. split; [reflexivity|]. split; [intros n b r []|reflexivity].
  - destruct (H n b (or_introl eq_refl)) as (En & q & L & Lq). cbn [app pack fst snd]. unfold zip_write. rewrite (lies_resolve n q L). cbn [bind]. rewrite Lq, (lies_arcname n q L), (zappend_ok a n b (lies_name_ok n q L En)).
    unfold os_remove. rewrite Lq. inversion ND as [|x y Nn ND']; subst. set (fs1 := filter (fun e => negb (rpath_eqb (fst e) q)) fs).
    assert (L1 : forall r, look fs1 r = if rpath_eqb r q then match r with [] => Some KDir | _ => None end else look fs r) by (intros r; apply look_removed).
    destruct (IH fs1 (a ++ [(n, b)]) rest ND') as (fs' & E & G1 & G2).
    { intros n' b' I. destruct (H n' b' (or_intror I)) as (En' & q' & L' & Lq'). split; [assumption|]. exists q'. split; [assumption|]. rewrite L1. destruct (rpath_eqb_spec q' q) as [->|_]; [|assumption]. exfalso. apply Nn. rewrite (lies_inj n n' q L L'). apply in_map_iff. exists (n', TFile b'). auto. }
    exists fs'. rewrite <- app_assoc in E. split; [exact E|]. split.
    + intros n' b' r [Ee|I] L'; [|exact (G1 n' b' r I L')]. injection Ee as <- <-. assert (r = q) as -> by exact (lies_unique n r q L' L). rewrite G2.
      * rewrite L1. destruct (rpath_eqb_spec q q); [|congruence]. assert (Nq := lies_nonnil n q L). destruct q; [congruence|reflexivity].
      * intros n' b' I L''. apply Nn. rewrite (lies_inj n n' q L L''). apply in_map_iff. exists (n', TFile b'). auto.
    + intros r Nr. rewrite G2 by (intros n' b' I; apply (Nr n' b'); now right). rewrite L1. destruct (rpath_eqb_spec r q) as [->|_]; [|reflexivity]. exfalso. apply (Nr n b); [now left|assumption].
Qed.
Lemma disjoint_names (l1 l2 : list (str * kind)) : NoDup (map fst (l1 ++ l2)) -> forall n, In n (map fst l1) -> ~ In n (map fst l2).
Proof. clear. rewrite map_app. induction (map fst l1) as [|x l IH]; intros ND n I J; [destruct I|]. cbn [app] in ND. inversion ND as [|y z Nx ND']; subst. destruct I as [->|I]; [apply Nx; apply in_or_app; now right|exact (IH ND' n I J)]. Qed.
Lemma first_names (l1 l2 : list (str * kind)) : NoDup (map fst (l1 ++ l2)) -> NoDup (map fst l1).
Proof. clear. rewrite map_app. induction (map fst l1) as [|x l IH]; intros ND; [constructor|]. cbn [app] in ND. inversion ND as [|y z Nx ND']; subst. constructor; [intros I; apply Nx; apply in_or_app; now left|now apply IH]. Qed.
(** The run with --dont-stream up to the loop that fills the zip file. *)
Lemma run_unpacked fs dir name d b ms cutoff : wf_fs fs -> argument cwd dir name d -> look fs (name :: d) = Some (KFile b) -> look fs (output_name name :: d) <> Some KDir -> untar b = Ok (ms, None) ->
  unpackable cwd fs (output_name name :: d) (name :: d) ms ->
  exists fs3, wf_fs fs3 /\ tar_main (dir ++ name) true cutoff fs = (let '(fs4, a, e) := pack cwd fs3 [] ms in (set_node fs4 (output_name name :: d) (dozip ZC [] a), e)) /\ after (opened fs (output_name name :: d)) fs3 ms.
Proof.
  intros W A L No U (ND & Rm & Ob). assert (D : look fs d = Some KDir) by exact (W _ _ _ L).
  destruct (extract_many ms (opened fs (output_name name :: d)) (opened_wf fs _ d W D No) ND) as (fs3 & E & W3 & P); [|exact Ob|].
  - intros (n, k) I. destruct (Rm n k I) as (K & _ & q & Lq & Nb & _ & U1 & U2 & U3). exists q. cbn [fst snd]. split; [assumption|]. split; [assumption|].
    assert (O : forall r, below r q -> look (opened fs (output_name name :: d)) r = look fs r).
    { intros r B. rewrite opened_look. destruct (rpath_eqb_spec (output_name name :: d) r) as [<-|_]; [now apply Nb in B|reflexivity]. }
    rewrite !(O q (below_refl q)). split; [|auto]. intros r B. rewrite O by now apply below_tl. now apply U1.
  - exists fs3. split; [assumption|]. split; [|assumption]. rewrite (run_opened fs dir name d true cutoff W A D No). cbv zeta. rewrite opened_look. destruct (output_proper name) as (_ & No'); [apply A|]. destruct (rpath_eqb_spec (output_name name :: d) (name :: d)) as [Ee|_]; [congruence|].
    rewrite L, U, E. reflexivity.
Qed.
Lemma unpacked_file fs fs' out tar ms n b q : unpackable cwd fs out tar ms -> after (opened fs out) fs' ms -> In (n, TFile b) ms -> lies_at cwd n q -> look fs' q = Some (KFile b).
Proof.
  clear. intros (ND & _ & Ob) P I L. destruct (P q) as [(v & Pv & ->)|(Nv & _)]; [|exfalso; apply (Nv (KFile b)); left; exists n, b; auto].
  assert (Same : forall n' k', In (n', k') ms -> lies_at cwd n' q -> k' = TFile b).
  { intros n' k' I' L'. assert (n' = n) as -> by exact (lies_inj n' n q L' L). clear -ND I I'. induction ms as [|(x, y) ms IH]; [destruct I|]. inversion ND as [|z w Nx ND']; subst. destruct I as [E|I], I' as [E'|I'].
    - congruence.
    - exfalso. injection E as -> ->. apply Nx. apply in_map_iff. exists (n, k'). auto.
    - exfalso. injection E' as -> ->. apply Nx. apply in_map_iff. exists (n, TFile b). auto.
    - auto. }
  destruct Pv as [(n' & b' & I' & L' & ->)|(-> & [(n' & k' & q' & I' & L' & B)|(n' & I' & L')])].
  - rewrite <- (Same n' _ I' L') in *. assert (E := Same n' _ I' L'). congruence.
  - exfalso. assert (q = q') as -> by (apply (Ob n b n' k' q q'); auto; now apply below_tl). exact (tl_not_below q' (lies_nonnil n' q' L') B).
  - specialize (Same n' _ I' L'). discriminate.
Qed.
(** the bytes of the zip file *)
Lemma unpack_result fs dir name d out b ms files cutoff : wf_fs fs -> argument cwd dir name d -> zip_named name out ->
  look fs (name :: d) = Some (KFile b) -> look fs (out :: d) <> Some KDir -> untar b = Ok (ms, None) -> files_of ms files -> unpackable cwd fs (out :: d) (name :: d) ms ->
  exists fs', tar_main (dir ++ name) true cutoff fs = (fs', None) /\ look fs' (out :: d) = Some (KFile (dozip ZC [] files)) /\ zip_ok files /\
    (forall n k q, In (n, k) ms -> lies_at cwd n q -> look fs' q = None) /\ (forall r, above cwd ms r -> look fs' r = Some KDir) /\
    (forall r, r <> out :: d -> ~ above cwd ms r -> (forall n k, In (n, k) ms -> ~ lies_at cwd n r) -> look fs' r = look fs r).
Proof.
  intros W A Zn L No U F Un. apply zip_named_output in Zn. subst out. destruct (run_unpacked fs dir name d b ms cutoff W A L No U Un) as (fs3 & W3 & -> & P).
  assert (Un' := Un). destruct Un' as (ND & Rm & Ob).
  destruct (pack_files ms files F fs3 [] [] ND) as (fs4 & E & G1 & G2).
  { intros n b' I. destruct (Rm n _ I) as (_ & En & q & Lq & _). split; [assumption|]. exists q. split; [assumption|]. exact (unpacked_file fs fs3 _ _ ms n b' q Un P I Lq). }
  rewrite app_nil_r in E. rewrite E. cbn [app pack]. exists (set_node fs4 (output_name name :: d) (dozip ZC [] files)). split; [reflexivity|].
  assert (Isf : forall n k, In (n, k) ms -> exists b, k = TFile b) by (intros n k I; destruct (files_in ms files F n k I) as (b' & -> & _); eauto).
  assert (Nout : forall n k q, In (n, k) ms -> lies_at cwd n q -> ~ below (output_name name :: d) q).
  { intros n k q I Lq. destruct (Rm n k I) as (_ & _ & q' & Lq' & Nb & _). now rewrite (lies_unique n q q' Lq Lq'). }
  split; [apply look_set_same; discriminate|]. split; [|split; [|split]].
  - intros n b' I. apply (files_from ms files F) in I. destruct (Rm n _ I) as (_ & En & q & Lq & _). exact (lies_name_ok n q Lq En).
  - intros n k q I Lq. rewrite look_set_other; [|discriminate|intros <-; exact (Nout n k _ I Lq (below_refl _))]. destruct (Isf n k I) as (b' & ->). exact (G1 n b' q I Lq).
  - intros r Ab. assert (Ab' := Ab). destruct Ab' as (n & k & q & I & Lq & B). rewrite look_set_other; [|discriminate|intros <-; apply (Nout n k q I Lq); now apply below_tl].
    rewrite G2.
    + destruct (P r) as [(v & [(n' & b' & I' & L' & _)|(-> & _)] & ->)|(Nv & _)]; [exfalso|reflexivity|exfalso; apply (Nv KDir); right; auto]. assert (r = q) as -> by (apply (Ob n' b' n k r q); auto; now apply below_tl). exact (tl_not_below q (lies_nonnil n q Lq) B).
    + intros n' b' I' L'. assert (r = q) as -> by (apply (Ob n' b' n k r q); auto; now apply below_tl). exact (tl_not_below q (lies_nonnil n q Lq) B).
  - intros r Nr Na Nm. rewrite look_set_other by congruence. rewrite G2 by (intros n b' I; now apply (Nm n (TFile b'))). destruct (P r) as [(v & [(n & b' & I & L' & _)|(_ & [Ab|(n & I & L')])] & _)|(_ & ->)].
    + exfalso. exact (Nm n _ I L').
    + now elim Na.
    + exfalso. exact (Nm n _ I L').
    + rewrite opened_look. destruct (rpath_eqb_spec (output_name name :: d) r); [congruence|reflexivity].
Qed.
(** C90 with --dont-stream, for a tar file of regular files: all of them, whatever --omit-large-files says, get into the zip file; files of the same names that lay in
    the current directory before are gone afterwards; the directories made for unpacking stay. *)
Theorem C90_unpack : forall fs dir name d out b ms files cutoff, wf_fs fs -> argument cwd dir name d -> zip_named name out ->
  look fs (name :: d) = Some (KFile b) -> look fs (out :: d) <> Some KDir -> untar b = Ok (ms, None) -> files_of ms files -> unpackable cwd fs (out :: d) (name :: d) ms ->
  exists fs', tar_main (dir ++ name) true cutoff fs = (fs', None) /\ zip_at fs' (out :: d) files /\
    (forall n k q, In (n, k) ms -> lies_at cwd n q -> look fs' q = None) /\ (forall r, above cwd ms r -> look fs' r = Some KDir) /\
    (forall r, r <> out :: d -> ~ above cwd ms r -> (forall n k, In (n, k) ms -> ~ lies_at cwd n r) -> look fs' r = look fs r).
Proof.
  intros fs dir name d out b ms files cutoff W A Zn L No U F Un. destruct (unpack_result fs dir name d out b ms files cutoff W A Zn L No U F Un) as (fs' & E & Lo & Z & R). exists fs'. split; [exact E|]. split; [|exact R].
  exists (dozip ZC [] files). split; [exact Lo|now apply unzip_dozip].
Qed.
(** Documented: "Should the tar contents be added to the zip file by unpacking them to disk first".  Refuted for tar files with a directory: os.remove fails on it, the zip
    file has only the files before it, and those after it stay unpacked. *)
Theorem C90_unpack_directory_refuted : forall fs dir name d out b l1 files n l2 cutoff, wf_fs fs -> argument cwd dir name d -> zip_named name out ->
  look fs (name :: d) = Some (KFile b) -> look fs (out :: d) <> Some KDir -> untar b = Ok (l1 ++ (n, TDir) :: l2, None) -> files_of l1 files -> unpackable cwd fs (out :: d) (name :: d) (l1 ++ (n, TDir) :: l2) ->
  exists fs', tar_main (dir ++ name) true cutoff fs = (fs', Some IOError) /\ zip_at fs' (out :: d) files /\
    (forall n k q, In (n, k) l1 -> lies_at cwd n q -> look fs' q = None) /\ (forall n b q, In (n, TFile b) l2 -> lies_at cwd n q -> look fs' q = Some (KFile b)).
Proof.
  intros fs dir name d out b l1 files n l2 cutoff W A Zn L No U F Un. apply zip_named_output in Zn. subst out. destruct (run_unpacked fs dir name d b _ cutoff W A L No U Un) as (fs3 & W3 & -> & P).
  assert (Un' := Un). destruct Un' as (ND & Rm & Ob). set (ms := l1 ++ (n, TDir) :: l2) in *.
  assert (ND1 : NoDup (map fst l1)) by (unfold ms in ND; exact (first_names l1 _ ND)).
  destruct (pack_files l1 files F fs3 [] ((n, TDir) :: l2) ND1) as (fs4 & E & G1 & G2).
  { intros n' b' I. assert (I' : In (n', TFile b') ms) by (apply in_or_app; now left). destruct (Rm n' _ I') as (_ & En & q & Lq & _). split; [assumption|]. exists q. split; [assumption|]. exact (unpacked_file fs fs3 _ _ ms n' b' q Un P I' Lq). }
  fold ms in E. rewrite E. cbn [app pack fst snd].
  assert (Im : In (n, TDir) ms) by (apply in_or_app; right; now left). destruct (Rm n _ Im) as (_ & _ & q & Lq & Nb & _). rewrite (lies_resolve n q Lq). cbn [bind].
  assert (Dist : forall n' k' r, In (n', k') ((n, TDir) :: l2) -> lies_at cwd n' r -> look fs4 r = look fs3 r).
  { intros n' k' r I Lr. apply G2. intros n'' b'' J Lr'. assert (n' = n'') as -> by exact (lies_inj n' n'' r Lr Lr'). exact (disjoint_names l1 _ ND n'' (in_map fst _ _ J) (in_map fst _ _ I)). }
  assert (Dq : look fs4 q = Some KDir).
  { rewrite (Dist n TDir q (or_introl eq_refl) Lq). destruct (P q) as [(v & [(n' & b' & I' & L' & _)|(-> & _)] & Ev)|(Nv & _)]; [exfalso|assumption|exfalso; apply (Nv KDir); right; split; [reflexivity|]; right; exists n; auto].
    assert (n' = n) as -> by exact (lies_inj n' n q L' Lq). assert (Lf := unpacked_file fs fs3 _ _ ms n b' q Un P I' Lq). clear -ND Im I'. induction ms as [|(x, y) ms' IH]; [destruct Im|]. inversion ND as [|z w Nx ND']; subst. destruct I' as [E|I], Im as [E'|I'].
    - congruence.
    - injection E as -> ->. apply Nx. exact (in_map fst _ _ I').
    - injection E' as -> ->. apply Nx. exact (in_map fst _ _ I).
    - auto. }
  unfold os_remove. rewrite Dq. exists (set_node fs4 (output_name name :: d) (dozip ZC [] files)). split; [reflexivity|].
  assert (Nout : forall n k q, In (n, k) ms -> lies_at cwd n q -> output_name name :: d <> q).
  { intros n' k' q' I' L' <-. destruct (Rm n' k' I') as (_ & _ & q2 & L2 & Nb2 & _). rewrite (lies_unique n' q2 _ L2 L') in Nb2. apply Nb2, below_refl. }
  split; [|split].
  - eapply closed_zip; [reflexivity|]. intros n' b' I. apply (files_from l1 files F) in I. assert (I' : In (n', TFile b') ms) by (apply in_or_app; now left). destruct (Rm n' _ I') as (_ & En & q' & Lq' & _). exact (lies_name_ok n' q' Lq' En).
  - intros n' k' q' I' L'. rewrite look_set_other; [|discriminate|apply (Nout n' k' q'); [apply in_or_app; now left|assumption]]. destruct (files_in l1 files F n' k' I') as (b' & -> & _). exact (G1 n' b' q' I' L').
  - intros n' b' q' I' L'. assert (I2 : In (n', TFile b') ms) by (apply in_or_app; right; now right). rewrite look_set_other; [|discriminate|exact (Nout n' _ q' I2 L')]. rewrite (Dist n' (TFile b') q' (or_intror I') L'). exact (unpacked_file fs fs3 _ _ ms n' b' q' Un P I2 L').
Qed.
End P.

(** ** A concrete case: archives of two files, of a directory with a file, and a damaged one; a file with the name of a member lies in the current directory. *)
Definition ms90 : list (str * kind) := [(!!"a/b", TFile !!"1"); (!!"c", TFile !!"22")].
Definition ms90b : list (str * kind) := [(!!"c", TFile !!"22"); (!!"a", TDir); (!!"a/b", TFile !!"1")].
Definition untar90 (b : bytes) : res (list (str * kind) * option exn) :=
  match b with [1%N] => Ok (ms90, None) | [2%N] => Ok (ms90b, None) | [3%N] => Ok (ms90, Some AnyError) | [4%N] => Ok ([(!!"c", TFile !!"22"); ([55296%N], TFile []); (!!"d", TFile [])], None) | _ => Raise AnyError end.
Definition fs90 (b : bytes) : list (list str * fnode) := [([!!"w"], KDir); ([!!"c"; !!"w"], KFile !!"old"); ([!!"x.tar"; !!"d"; !!"w"], KFile b); ([!!"x.zip"; !!"d"; !!"w"], KFile !!"mine"); ([!!"d"; !!"w"], KDir)].
Notation run90 := (tar_main [!!"w"] toy_zip [] untar90).
Notation out90 r := (match look (fst r) [!!"x.zip"; !!"d"; !!"w"] with Some (KFile b) => unzip toy_zip b | _ => Raise AnyError end).
Example C90_witness :
  (let r := run90 !!"d/x.tar" false (Some 1%N) (fs90 [1%N]) in snd r = None /\ out90 r = Ok [(!!"a/b", !!"1")] /\ look (fst r) [!!"c"; !!"w"] = Some (KFile !!"old")) /\
  (let r := run90 !!"d/x.tar" true (Some 1%N) (fs90 [1%N]) in snd r = None /\ out90 r = Ok [(!!"a/b", !!"1"); (!!"c", !!"22")] /\ look (fst r) [!!"c"; !!"w"] = None /\ look (fst r) [!!"a"; !!"w"] = Some KDir) /\
  (let r := run90 !!"d/x.tar" true None (fs90 [2%N]) in snd r = Some IOError /\ out90 r = Ok [(!!"c", !!"22")] /\ look (fst r) [!!"b"; !!"a"; !!"w"] = Some (KFile !!"1")) /\
  (let r := run90 !!"d/x.tar" false None (fs90 [3%N]) in snd r = Some AnyError /\ out90 r = Ok [(!!"a/b", !!"1"); (!!"c", !!"22")]) /\
  (let r := run90 !!"d/x.tar" false None (fs90 [4%N]) in snd r = Some UnicodeEncodeError /\ out90 r = Ok [(!!"c", !!"22")]) /\
  (let r := run90 !!"d/x.tar" false None (fs90 [5%N]) in snd r = Some AnyError /\ out90 r = Ok []) /\
  (let r := run90 !!"d/x.tgz" false None (fs90 [1%N]) in snd r = Some FileNotFoundError /\ out90 r = Ok []).
Proof. vm_compute. repeat split. Qed.
Lemma one_part90 cwd n p : proper p -> n = p -> lies_at cwd n (p :: cwd).
Proof. intros P ->. exists [p]. split; [discriminate|]. split; [repeat constructor; apply P|]. split; reflexivity. Qed.
Ltac proper90 := repeat split; try discriminate; vm_compute; intuition discriminate.
Lemma lies90_c : lies_at [!!"w"] !!"c" [!!"c"; !!"w"]. Proof. apply one_part90; [proper90|reflexivity]. Qed.
Lemma lies90_a : lies_at [!!"w"] !!"a" [!!"a"; !!"w"]. Proof. apply one_part90; [proper90|reflexivity]. Qed.
Lemma lies90_ab : lies_at [!!"w"] !!"a/b" [!!"b"; !!"a"; !!"w"].
Proof. exists [!!"a"; !!"b"]. split; [discriminate|]. split; [repeat constructor; proper90|]. split; reflexivity. Qed.
Lemma above90 r (p : list str) : below r p -> In r ((fix up (p : list str) := p :: match p with [] => [] | _ :: q => up q end) p).
Proof. induction p as [|c p IH]; intros B; [left; symmetry; now apply below_nil|]. apply below_inv in B. destruct B as [->|B]; [now left|right; auto]. Qed.
Lemma proper90_w : Forall proper [!!"w"]. Proof. repeat constructor; proper90. Qed.
Lemma unpackable90 : unpackable [!!"w"] (fs90 [1%N]) [!!"x.zip"; !!"d"; !!"w"] [!!"x.tar"; !!"d"; !!"w"] ms90 /\ unpackable [!!"w"] (fs90 [2%N]) [!!"x.zip"; !!"d"; !!"w"] [!!"x.tar"; !!"d"; !!"w"] ms90b.
Proof.
  assert (Up : forall b r, In r [[!!"a"; !!"w"]; [!!"w"]; []] -> look (fs90 b) r = None \/ look (fs90 b) r = Some KDir) by (intros b r [<-|[<-|[<-|[]]]]; [left|right|right]; reflexivity).
  assert (F : forall b n k q, In (n, k, q) [(!!"c", TFile !!"22", [!!"c"; !!"w"]); (!!"a", TDir, [!!"a"; !!"w"]); (!!"a/b", TFile !!"1", [!!"b"; !!"a"; !!"w"])] -> lies_at [!!"w"] n q ->
    k <> TOther /\ (exists b', encode n = Ok b') /\ exists q, lies_at [!!"w"] n q /\ ~ below [!!"x.zip"; !!"d"; !!"w"] q /\ q <> [!!"x.tar"; !!"d"; !!"w"] /\
     (forall r, below r (tl q) -> look (fs90 b) r = None \/ look (fs90 b) r = Some KDir) /\
     (k = TDir -> look (fs90 b) q = None \/ look (fs90 b) q = Some KDir) /\ (k <> TDir -> look (fs90 b) q = None \/ exists b', look (fs90 b) q = Some (KFile b'))).
  { intros b n k q I L. destruct I as [E|[E|[E|[]]]]; injection E as <- <- <-; (split; [discriminate|]; split; [eexists; vm_compute; reflexivity|]; eexists; split; [exact L|]; split; [intros B; apply above90 in B; vm_compute in B; intuition discriminate|]; split; [discriminate|]; split; [intros r B; apply above90 in B; apply Up; vm_compute in B |- *; tauto|]).
    - split; [discriminate|]. intros _. right. eexists. reflexivity.
    - split; [intros _; now left|congruence].
    - split; [discriminate|]. intros _. now left. }
  assert (Loc : forall n k q, In (n, k) (ms90 ++ ms90b) -> lies_at [!!"w"] n q -> In (n, k, q) [(!!"c", TFile !!"22", [!!"c"; !!"w"]); (!!"a", TDir, [!!"a"; !!"w"]); (!!"a/b", TFile !!"1", [!!"b"; !!"a"; !!"w"])]).
  { intros n k q I L. assert (U := lies_unique [!!"w"] n q). cbn [ms90 ms90b app In] in I. decompose [or] I; try contradiction; match goal with H : (_, _) = (n, k) |- _ => injection H as <- <- end;
    first [rewrite (U _ L lies90_c)|rewrite (U _ L lies90_a)|rewrite (U _ L lies90_ab)]; simpl; auto. }
  assert (Ex : forall n k, In (n, k) (ms90 ++ ms90b) -> exists q, lies_at [!!"w"] n q).
  { intros n k I. cbn [ms90 ms90b app In] in I. decompose [or] I; try contradiction; match goal with H : (_, _) = (n, k) |- _ => injection H as <- <- end; eexists; first [exact lies90_c|exact lies90_a|exact lies90_ab]. }
  assert (Ob : forall n b n' k' q q', In (n, TFile b) (ms90 ++ ms90b) -> In (n', k') (ms90 ++ ms90b) -> lies_at [!!"w"] n q -> lies_at [!!"w"] n' q' -> below q q' -> q = q').
  { intros n b n' k' q q' I I' L L' B. apply (Loc n _ q I) in L. apply (Loc n' _ q' I') in L'. cbn [In] in L, L'. decompose [or] L; try contradiction; match goal with H : (_, _, _) = (n, _, q) |- _ => try discriminate H; injection H as <- <- <- end;
    (decompose [or] L'; try contradiction; match goal with H : (_, _, _) = (n', _, q') |- _ => injection H as <- <- <- end; try reflexivity; exfalso; apply above90 in B; vm_compute in B; intuition discriminate). }
  split; (split; [repeat constructor; vm_compute; intuition discriminate|]; split).
  - intros n k I. assert (I' : In (n, k) (ms90 ++ ms90b)) by (apply in_or_app; now left). destruct (Ex n k I') as (q & L). exact (F _ n k q (Loc n k q I' L) L).
  - intros n b n' k' q q' I I'. apply (Ob n b n' k' q q'); apply in_or_app; now left.
  - intros n k I. assert (I' : In (n, k) (ms90 ++ ms90b)) by (apply in_or_app; now right). destruct (Ex n k I') as (q & L). exact (F _ n k q (Loc n k q I' L) L).
  - intros n b n' k' q q' I I'. apply (Ob n b n' k' q q'); apply in_or_app; now right.
Qed.
Example C90_hypotheses : wf_fs (fs90 [1%N]) /\ argument [!!"w"] !!"d/" !!"x.tar" [!!"d"; !!"w"] /\ zip_named !!"x.tar" !!"x.zip" /\ files_of ms90 [(!!"a/b", !!"1"); (!!"c", !!"22")] /\
  unpackable [!!"w"] (fs90 [1%N]) [!!"x.zip"; !!"d"; !!"w"] [!!"x.tar"; !!"d"; !!"w"] ms90 /\ unpackable [!!"w"] (fs90 [2%N]) [!!"x.zip"; !!"d"; !!"w"] [!!"x.tar"; !!"d"; !!"w"] ms90b /\
  (forall n b, In (n, TFile b) ms90 -> n <> [] /\ name_ok n).
Proof.
  split; [intros c q k L; assert (I : exists v, In (c :: q, v) (fs90 [1%N])) by (apply find_path_in; unfold look in L; congruence); destruct I as (v & I); cbn [fs90 In] in I; decompose [or] I; try contradiction; match goal with H : (_, _) = (c :: q, v) |- _ => injection H as <- <- <- end; reflexivity|].
  split; [split; [right; exists !!"d"; reflexivity|]; split; [vm_compute; intuition discriminate|]; split; [apply (C80_resolution [!!"w"] !!"d/" _ proper90_w); reflexivity|proper90]|].
  split; [exact (zn_tar !!"x")|]. split; [repeat constructor|]. split; [apply unpackable90|]. split; [apply unpackable90|].
  intros n b I. cbn [ms90 In] in I. decompose [or] I; try contradiction; match goal with H : (_, _) = (n, _) |- _ => injection H as <- <- end; (split; [discriminate|]; split; [vm_compute; intuition discriminate|eexists; vm_compute; reflexivity]).
Qed.
Print Assumptions C90_stream.
Print Assumptions C90_no_tar.
Print Assumptions C90_blocked.
Print Assumptions C90_bad_name.
Print Assumptions C90_unpack.
Print Assumptions C90_unpack_directory_refuted.
