(** * Property C120: tar_gz_to_zip killed, and run again *)
From Verif Require Import Prelude PyStr TextLib Utf8 Params Fs FsProofs FsProps Io IoProps KeyValue KeyValueProps Scripts ScriptsProps Mains MainsProofs ScriptCrash ScriptCrashProps TarMain TarMainProps TarCrash.

(** ** Specification *)
(** What is left of the disk [fs] by unpacking some of the members [ms]: new directories above members; at the places of the members what was there, nothing, or a beginning of the member;
    at [out] what was there, nothing or some file; everything else as it was. *)
Definition remains (cwd : list str) (ms : list (str * kind)) (out : list str) (fs st : list (list str * fnode)) : Prop :=
  forall r, look st r = look fs r \/
    above cwd ms r /\ look fs r = None /\ look st r = Some KDir \/
    (exists n b, In (n, TFile b) ms /\ lies_at cwd n r /\ (look st r = None \/ exists part rest, b = part ++ rest /\ look st r = Some (KFile part))) \/
    r = out /\ (look st r = None \/ exists b, look st r = Some (KFile b)).

Section P.
Notation fsys := (list (list str * fnode)) (only parsing).
Variable cwd : list str.
Variable ZC : zip_codec.
Variable torn : bytes.
Variable untar : bytes -> res (list (str * kind) * option exn).
Variable unfinished : bytes -> Prop.
Hypothesis cwd_proper : Forall proper cwd.
Notation tar_main := (tar_main cwd ZC torn untar).
Notation tar_moment := (tar_moment cwd ZC torn untar unfinished).
Notation remains := (remains cwd).

(** ** Facts *)
Lemma set_wf_dir (fs : fsys) c d b : wf_fs fs -> look fs d = Some KDir -> look fs (c :: d) <> Some KDir -> wf_fs (set_node fs (c :: d) b).
Proof.
  clear. intros W D N x r k. rewrite !look_set by discriminate. destruct (rpath_eqb_spec (c :: d) r) as [<-|N1].
  - destruct (rpath_eqb_spec (c :: d) (x :: c :: d)) as [E|_]; [apply (f_equal (@length _)) in E; simpl in E; lia|]. intros L. apply W in L. congruence.
  - destruct (rpath_eqb_spec (c :: d) (x :: r)) as [E|_]; [injection E as -> ->; intros _; assumption|]. apply W.
Qed.
Lemma self_above (c : str) (d : list str) : d <> c :: d.
Proof. clear. intros E. apply (f_equal (@length _)) in E. simpl in E. lia. Qed.
(** where the script gets past its checks *)
Definition fits (fs : fsys) (c : str) (d : list str) : Prop := look fs d = Some KDir /\ look fs (c :: d) <> Some KDir.
Lemma fits_dec fs c d : fits fs c d \/ ~ fits fs c d.
Proof.
  clear. unfold fits. destruct (look fs d) as [[x| |]|]; try (right; intros (E & _); discriminate). destruct (look fs (c :: d)) as [[x| |]|]; try (left; split; [reflexivity|discriminate]). right. intros (_ & E). now apply E.
Qed.
(** removing the old output *)
Lemma cleared fs c d fs1 : wf_fs fs -> (if exists_ fs (c :: d) then os_remove fs (c :: d) else (fs, None)) = (fs1, None) ->
  look fs (c :: d) <> Some KDir /\ (forall r, look fs1 r = if rpath_eqb r (c :: d) then None else look fs r) /\ wf_fs fs1.
Proof.
  clear. intros W. unfold exists_, os_remove. destruct (look fs (c :: d)) as [[x| |]|] eqn:L; intros E; try discriminate.
  - injection E as <-. split; [discriminate|]. split; [|apply removed_wf; [exact W|congruence]]. intros r. rewrite look_removed. destruct (rpath_eqb_spec r (c :: d)) as [->|_]; reflexivity.
  - injection E as <-. split; [discriminate|]. split; [|apply removed_wf; [exact W|congruence]]. intros r. rewrite look_removed. destruct (rpath_eqb_spec r (c :: d)) as [->|_]; reflexivity.
  - injection E as <-. split; [discriminate|]. split; [|exact W]. intros r. destruct (rpath_eqb_spec r (c :: d)) as [->|_]; [exact L|reflexivity].
Qed.
Lemma created fs c d : wf_fs fs -> can_create fs (c :: d) = Ok tt -> look fs d = Some KDir.
Proof. clear. intros W E. cbn [can_create] in E. assert (S1 := search_spec fs d W). destruct (search fs d) as [[]|e]; [exact S1|discriminate E]. Qed.
(** up to the opened zip file *)
Lemma to_opened fs c d fs1 b : wf_fs fs -> (if exists_ fs (c :: d) then os_remove fs (c :: d) else (fs, None)) = (fs1, None) -> can_create fs1 (c :: d) = Ok tt ->
  fits fs c d /\ wf_fs (set_node fs1 (c :: d) b) /\ forall r, look (set_node fs1 (c :: d) b) r = if rpath_eqb (c :: d) r then Some (KFile b) else look fs r.
Proof.
  clear. intros W E C. destruct (cleared fs c d fs1 W E) as (N & L1 & W1). assert (D := created fs1 c d W1 C). assert (D0 := D). rewrite L1 in D0. destruct (rpath_eqb_spec d (c :: d)) as [X|_]; [now apply self_above in X|].
  split; [split; assumption|]. split.
  - apply set_wf_dir; [exact W1|exact D|]. rewrite L1. destruct (rpath_eqb_spec (c :: d) (c :: d)); [discriminate|congruence].
  - intros r. rewrite look_set by discriminate. destruct (rpath_eqb_spec (c :: d) r) as [E'|N']; [reflexivity|]. rewrite L1. destruct (rpath_eqb_spec r (c :: d)); [congruence|reflexivity].
Qed.
Lemma not_fitting fs dir name d dont cutoff : wf_fs fs -> argument cwd dir name d -> ~ fits fs (output_name name) d -> fst (tar_main (dir ++ name) dont cutoff fs) = fs.
Proof.
  intros W A N. assert (A' := A). destruct A as (Dr & _ & _ & P). destruct (output_proper name P) as (Po & _). unfold TarMain.tar_main. rewrite (output_child dir name Dr), (resolve_child cwd cwd_proper dir name d A' _ Po).
  destruct (if exists_ fs (output_name name :: d) then os_remove fs (output_name name :: d) else (fs, None)) as [fs1 [e|]] eqn:E.
  - cbn [fst]. unfold exists_, os_remove in E. destruct (look fs (output_name name :: d)) as [[x| |]|]; inversion E; reflexivity.
  - destruct (can_create fs1 (output_name name :: d)) as [[]|e] eqn:C.
    + exfalso. apply N. exact (proj1 (to_opened fs _ d fs1 [] W E C)).
    + cbn [fst]. unfold exists_, os_remove in E. destruct (look fs (output_name name :: d)) as [[x| |]|] eqn:L; try discriminate E; [| |now inversion E]; exfalso.
      * assert (D : look fs d = Some KDir) by exact (W _ _ _ L). apply N. split; [exact D|congruence].
      * assert (D : look fs d = Some KDir) by exact (W _ _ _ L). apply N. split; [exact D|congruence].
Qed.

(** ** Streaming *)
(** nothing but the output is touched *)
Definition only_out (c : str) (d : list str) (fs st : fsys) : Prop := st = fs \/ fits fs c d /\ wf_fs st /\ fits st c d /\ forall r, r <> c :: d -> look st r = look fs r.
Lemma stream_result fs dir name d cutoff : wf_fs fs -> argument cwd dir name d -> fits fs (output_name name) d ->
  exists b, fst (tar_main (dir ++ name) false cutoff fs) = set_node (opened torn fs (output_name name :: d)) (output_name name :: d) b.
Proof.
  intros W A (D & N). rewrite (run_opened cwd ZC torn untar cwd_proper fs dir name d false cutoff W A D N). cbv zeta. destruct (look (opened torn fs (output_name name :: d)) (name :: d)) as [[x| |]|]; try (eexists; reflexivity).
  destruct (untar x) as [(ms, damage)|e]; [|eexists; reflexivity]. destruct (tar_to_zip cutoff (map as_member ms)) as [a [e|]]; eexists; reflexivity.
Qed.
Lemma stream_moment fs dir name d cutoff st : wf_fs fs -> argument cwd dir name d -> tar_moment (dir ++ name) false cutoff fs st -> only_out (output_name name) d fs st.
Proof.
  intros W A M. assert (A' := A). destruct A' as (Dr & _ & _ & P). destruct (output_proper name P) as (Po & _). assert (R : forall q, resolve cwd (output_name (dir ++ name)) = Ok q -> q = output_name name :: d).
  { intros q. rewrite (output_child dir name Dr), (resolve_child cwd cwd_proper dir name d A _ Po). intros E. now injection E as <-. }
  destruct M as [M|q Eq E Rm|q fs1 b Eq E C U M|q fs1 b ms damage X|q fs1 b ms fs3 st3 b' X|M]; try discriminate X; [now left| | |].
  - right. apply R in Eq. subst q. assert (E1 : (if exists_ fs (output_name name :: d) then os_remove fs (output_name name :: d) else (fs, None)) = (st, None)) by (rewrite E; exact Rm).
    destruct (cleared fs _ d st W E1) as (N & L & W1). unfold exists_ in E. destruct (look fs (output_name name :: d)) as [v|] eqn:Lv; [|discriminate E]. assert (D : look fs d = Some KDir) by exact (W _ _ _ Lv).
    split; [split; [exact D|congruence]|]. split; [exact W1|]. split.
    + split; rewrite L; [destruct (rpath_eqb_spec d (output_name name :: d)) as [Y|_]; [now apply self_above in Y|exact D]|destruct (rpath_eqb_spec (output_name name :: d) (output_name name :: d)); [discriminate|congruence]].
    + intros r Nr. rewrite L. destruct (rpath_eqb_spec r (output_name name :: d)); [congruence|reflexivity].
  - right. apply R in Eq. subst q st. destruct (to_opened fs _ d fs1 b W E C) as (F & W1 & L). split; [exact F|]. split; [exact W1|]. split.
    + split; rewrite L; [destruct (rpath_eqb_spec (output_name name :: d) d) as [Y|_]; [symmetry in Y; now apply self_above in Y|apply F]|destruct (rpath_eqb_spec (output_name name :: d) (output_name name :: d)); [discriminate|congruence]].
    + intros r Nr. rewrite L. destruct (rpath_eqb_spec (output_name name :: d) r); [congruence|reflexivity].
  - destruct (fits_dec fs (output_name name) d) as [F|F]; [|left; now rewrite M, (not_fitting fs dir name d false cutoff W A F)]. right. destruct (stream_result fs dir name d cutoff W A F) as (b & E). rewrite E in M. subst st.
    destruct F as (D & N). assert (Wo := opened_wf torn fs _ d W D N). assert (Lo := opened_look torn fs (output_name name) d).
    assert (Do : look (opened torn fs (output_name name :: d)) d = Some KDir) by (rewrite Lo; destruct (rpath_eqb_spec (output_name name :: d) d) as [Y|_]; [symmetry in Y; now apply self_above in Y|exact D]).
    split; [split; assumption|]. split; [apply set_wf_dir; [exact Wo|exact Do|]; rewrite Lo; destruct (rpath_eqb_spec (output_name name :: d) (output_name name :: d)); [discriminate|congruence]|]. split.
    + split; [rewrite look_set_other; [exact Do|discriminate|intros Y; symmetry in Y; now apply self_above in Y]|rewrite look_set_same; discriminate].
    + intros r Nr. rewrite look_set_other; [|discriminate|congruence]. rewrite Lo. destruct (rpath_eqb_spec (output_name name :: d) r); [congruence|reflexivity].
Qed.
Lemma only_out_wf c d fs st : wf_fs fs -> only_out c d fs st -> wf_fs st.
Proof. clear. intros W [->|(_ & W1 & _)]; assumption. Qed.
Lemma only_out_trans c d a b e : only_out c d a b -> only_out c d b e -> only_out c d a e.
Proof.
  clear. intros [->|(F & W & F1 & H)] [->|(F2 & W2 & F3 & H2)]; [now left|right; auto|right; auto|]. right. split; [exact F|]. split; [exact W2|]. split; [exact F3|]. intros r N. rewrite H2 by exact N. now apply H.
Qed.
Lemma stream_killed dir name d cutoff fs st : wf_fs fs -> argument cwd dir name d -> killed_runs (tar_moment (dir ++ name) false cutoff) fs st -> only_out (output_name name) d fs st.
Proof.
  intros W A K. induction K as [fs|fs st st' M K IH]; [now left|]. assert (O1 := stream_moment fs dir name d cutoff st W A M). apply (only_out_trans _ _ _ st); [exact O1|]. apply IH. exact (only_out_wf _ _ _ _ W O1).
Qed.
Lemma run_same dir name d cutoff fs st : wf_fs fs -> argument cwd dir name d -> only_out (output_name name) d fs st ->
  snd (tar_main (dir ++ name) false cutoff st) = snd (tar_main (dir ++ name) false cutoff fs) /\ forall r, look (fst (tar_main (dir ++ name) false cutoff st)) r = look (fst (tar_main (dir ++ name) false cutoff fs)) r.
Proof.
  intros W A [->|((D & N) & W1 & (D1 & N1) & H)]; [auto|].
  rewrite (run_opened cwd ZC torn untar cwd_proper fs dir name d false cutoff W A D N), (run_opened cwd ZC torn untar cwd_proper st dir name d false cutoff W1 A D1 N1). cbv zeta.
  assert (L : forall r, look (opened torn st (output_name name :: d)) r = look (opened torn fs (output_name name :: d)) r).
  { intros r. rewrite !opened_look. destruct (rpath_eqb_spec (output_name name :: d) r); [reflexivity|]. apply H. congruence. }
  assert (Lc : forall b r, look (set_node (opened torn st (output_name name :: d)) (output_name name :: d) b) r = look (set_node (opened torn fs (output_name name :: d)) (output_name name :: d) b) r).
  { intros b r. rewrite !look_set by discriminate. destruct (rpath_eqb (output_name name :: d) r); [reflexivity|apply L]. }
  rewrite L. destruct (look (opened torn fs (output_name name :: d)) (name :: d)) as [[x| |]|]; cbn [fst snd]; auto.
  destruct (untar x) as [(ms, damage)|e]; cbn [fst snd]; auto. destruct (tar_to_zip cutoff (map as_member ms)) as [a [e|]]; cbn [fst snd]; auto.
Qed.
(** C120: a run (without --dont-stream) that is killed has touched nothing but the output, which is as before, missing, unfinished, or as after a complete run. *)
Theorem C120_stream_moments : forall fs dir name d out cutoff st, wf_fs fs -> argument cwd dir name d -> zip_named name out -> tar_moment (dir ++ name) false cutoff fs st ->
  (forall r, r <> out :: d -> look st r = look fs r) /\
  (look st (out :: d) = look fs (out :: d) \/ look st (out :: d) = None \/ (exists b, unfinished b /\ look st (out :: d) = Some (KFile b)) \/
   look st (out :: d) = look (fst (tar_main (dir ++ name) false cutoff fs)) (out :: d)).
Proof.
  intros fs dir name d out cutoff st W A Zn M. apply zip_named_output in Zn. subst out. split.
  - intros r N. destruct (stream_moment fs dir name d cutoff st W A M) as [->|(_ & _ & _ & H)]; [reflexivity|now apply H].
  - assert (A' := A). destruct A' as (Dr & _ & _ & P). destruct (output_proper name P) as (Po & _). assert (R : forall q, resolve cwd (output_name (dir ++ name)) = Ok q -> q = output_name name :: d).
    { intros q. rewrite (output_child dir name Dr), (resolve_child cwd cwd_proper dir name d A _ Po). intros E. now injection E as <-. }
    destruct M as [M|q Eq E Rm|q fs1 b Eq E C U M|q fs1 b ms damage X|q fs1 b ms fs3 st3 b' X|M]; try discriminate X.
    + left. now subst.
    + right. left. apply R in Eq. subst q. assert (E1 : (if exists_ fs (output_name name :: d) then os_remove fs (output_name name :: d) else (fs, None)) = (st, None)) by (rewrite E; exact Rm).
      destruct (cleared fs _ d st W E1) as (_ & L & _). rewrite L. destruct (rpath_eqb_spec (output_name name :: d) (output_name name :: d)); [reflexivity|congruence].
    + right. right. left. apply R in Eq. subst q st. exists b. split; [exact U|]. apply look_set_same. discriminate.
    + right. right. right. now subst.
Qed.
(** C120: however often it was killed before, a run (without --dont-stream) that is not killed ends as if there had been no other: with the same files, byte for byte, and the same exception, if any. *)
Theorem C120_stream_again : forall fs dir name d out cutoff st, wf_fs fs -> argument cwd dir name d -> zip_named name out -> killed_runs (tar_moment (dir ++ name) false cutoff) fs st ->
  (forall r, r <> out :: d -> look st r = look fs r) /\
  exists f f' e, tar_main (dir ++ name) false cutoff fs = (f, e) /\ tar_main (dir ++ name) false cutoff st = (f', e) /\ forall r, look f' r = look f r.
Proof.
  intros fs dir name d out cutoff st W A Zn K. apply zip_named_output in Zn. subst out. assert (O := stream_killed dir name d cutoff fs st W A K). split.
  - intros r N. destruct O as [->|(_ & _ & _ & H)]; [reflexivity|now apply H].
  - destruct (run_same dir name d cutoff fs st W A O) as (E & L). destruct (tar_main (dir ++ name) false cutoff fs) as [f e] eqn:E1. destruct (tar_main (dir ++ name) false cutoff st) as [f' e'] eqn:E2. cbn [fst snd] in E, L. subst e'. exists f, f', e. auto.
Qed.

(** ** Unpacking *)
Section U.
Variables (fs0 : fsys) (dir name : str) (d : list str) (b : bytes) (ms : list (str * kind)) (files : archive).
Notation out := (output_name name :: d).
Hypothesis W0 : wf_fs fs0.
Hypothesis Ar : argument cwd dir name d.
Hypothesis Lt : look fs0 (name :: d) = Some (KFile b).
Hypothesis Lo : look fs0 out <> Some KDir.
Hypothesis Un : untar b = Ok (ms, None).
Hypothesis Fi : files_of ms files.
Hypothesis Up : unpackable cwd fs0 out (name :: d) ms.
Definition good (st : fsys) : Prop := wf_fs st /\ remains ms out fs0 st.
Lemma good_refl : good fs0.
Proof using W0. split; [exact W0|]. intros r. now left. Qed.
Lemma a_file n k : In (n, k) ms -> exists x, k = TFile x.
Proof using Fi. intros H. destruct (files_in ms files Fi n k H) as (x & -> & _). now exists x. Qed.
Lemma not_above n k q : In (n, k) ms -> lies_at cwd n q -> ~ above cwd ms q.
Proof using Fi Up.
  intros H L (n' & k' & q' & H' & L' & B). destruct (a_file n k H) as (x & ->). assert (q = q') as -> by (exact (proj2 (proj2 Up) n x n' k' q q' H H' L L' (below_tl q q' B))). exact (tl_not_below q' (lies_nonnil cwd n' q' L') B).
Qed.
Lemma not_out n k q : In (n, k) ms -> lies_at cwd n q -> ~ below out q.
Proof using Up. intros H L. destruct (proj1 (proj2 Up) n k H) as (_ & _ & q' & L' & Nb & _). now rewrite (lies_unique cwd n q q' L L'). Qed.
Lemma out_not_above : ~ above cwd ms out.
Proof using Up. intros (n & k & q & H & L & B). exact (not_out n k q H L (below_tl _ q B)). Qed.
Lemma not_tar n k q : In (n, k) ms -> lies_at cwd n q -> q <> name :: d.
Proof using Up. intros H L. destruct (proj1 (proj2 Up) n k H) as (_ & _ & q' & L' & _ & Nt & _). now rewrite (lies_unique cwd n q q' L L'). Qed.
Lemma same_data n x y : In (n, TFile x) ms -> In (n, TFile y) ms -> x = y.
Proof using Up.
  assert (ND := proj1 Up). clear - ND. induction ms as [|(m, k) l IH]; intros Hx Hy; [destruct Hx|]. inversion ND as [|z w Nx ND']; subst. destruct Hx as [E|Hx], Hy as [E'|Hy].
  - congruence.
  - exfalso. injection E as -> ->. exact (Nx (in_map fst _ _ Hy)).
  - exfalso. injection E' as -> ->. exact (Nx (in_map fst _ _ Hx)).
  - exact (IH ND' Hx Hy).
Qed.
Lemma good_tar st : good st -> look st (name :: d) = Some (KFile b).
Proof using Ar Lt Up.
  intros (_ & R). destruct (R (name :: d)) as [E|[(_ & E & _)|[(n & x & H & L & _)|(E & _)]]].
  - now rewrite E.
  - rewrite Lt in E. discriminate E.
  - exfalso. exact (not_tar n _ _ H L eq_refl).
  - exfalso. destruct (output_proper name (proj2 (proj2 (proj2 Ar)))) as (_ & N). apply N. injection E as E. now symmetry.
Qed.
Lemma good_d st : good st -> look st d = Some KDir.
Proof using Ar Lt Up. intros G. exact (proj1 G _ _ _ (good_tar st G)). Qed.
Lemma good_out st : good st -> look st out <> Some KDir.
Proof using Lo Up.
  intros (_ & R) E. destruct (R out) as [E1|[(A & _)|[(n & x & H & L & _)|(_ & [E1|(y & E1)])]]].
  - apply Lo. now rewrite <- E1.
  - exact (out_not_above A).
  - exact (not_out n _ _ H L (below_refl _)).
  - rewrite E in E1. discriminate E1.
  - rewrite E in E1. discriminate E1.
Qed.
Lemma room_up st n k q r : good st -> In (n, k) ms -> lies_at cwd n q -> below r (tl q) -> look st r = None \/ look st r = Some KDir.
Proof using Fi Up.
  intros (_ & R) H L B. assert (Ab : above cwd ms r) by (exists n, k, q; split; [exact H|split; assumption]). destruct (R r) as [E|[(_ & _ & E)|[(n' & x & H' & L' & _)|(-> & _)]]].
  - rewrite E. destruct (proj1 (proj2 Up) n k H) as (_ & _ & q' & L' & _ & _ & U1 & _). rewrite (lies_unique cwd n q q' L L') in B. exact (U1 r B).
  - now right.
  - exfalso. exact (not_above n' _ r H' L' Ab).
  - exfalso. exact (out_not_above Ab).
Qed.
Lemma room_at st n k q : good st -> In (n, k) ms -> lies_at cwd n q -> look st q = None \/ exists x, look st q = Some (KFile x).
Proof using Fi Up.
  intros (_ & R) H L. destruct (R q) as [E|[(A & _)|[(n' & x & _ & _ & [E|(part & _ & _ & E)])|(-> & _)]]].
  - rewrite E. destruct (proj1 (proj2 Up) n k H) as (_ & _ & q' & L' & _ & _ & _ & _ & U2). rewrite <- (lies_unique cwd n q q' L L') in U2. apply U2. destruct (a_file n k H) as (y & ->). discriminate.
  - exfalso. exact (not_above n k q H L A).
  - now left.
  - right. now exists part.
  - exfalso. exact (not_out n k _ H L (below_refl _)).
Qed.
Lemma good_room st m : good st -> In m ms -> room cwd st m.
Proof using Fi Up.
  intros G H. destruct m as (n, k). destruct (proj1 (proj2 Up) n k H) as (K & _ & q & L & _). exists q. cbn [fst snd]. split; [exact L|]. split; [exact K|]. split; [intros r B; exact (room_up st n k q r G H L B)|].
  split; [|intros _; exact (room_at st n k q G H L)]. destruct (a_file n k H) as (x & ->). discriminate.
Qed.
(** the steps *)
Lemma good_dirs st st' n k q : good st -> In (n, k) ms -> lies_at cwd n q -> left_by st st' [tl q] [] -> good st'.
Proof using Fi Up.
  intros (_ & R) H L (W' & H'). split; [exact W'|]. intros r. destruct (H' r) as [E|[(q' & [<-|[]] & B & E0 & E1)|([] & _)]]; [rewrite E; exact (R r)|].
  assert (Ab : above cwd ms r) by (exists n, k, q; split; [exact H|split; assumption]). right. left. split; [exact Ab|]. split; [|exact E1]. destruct (R r) as [E|[(_ & E & _)|[(n' & x & I' & L' & _)|(-> & _)]]].
  - now rewrite <- E.
  - exact E.
  - exfalso. exact (not_above n' _ r I' L' Ab).
  - exfalso. exact (out_not_above Ab).
Qed.
Lemma good_part st n x part rest c e : good st -> In (n, TFile x) ms -> lies_at cwd n (c :: e) -> x = part ++ rest -> look st e = Some KDir -> good (set_node st (c :: e) part).
Proof using Fi Up.
  intros G H L -> D. assert (Nd : look st (c :: e) <> Some KDir) by (destruct (room_at st n _ _ G H L) as [E|(y & E)]; rewrite E; discriminate). split; [exact (set_wf_dir st c e part (proj1 G) D Nd)|].
  intros r. rewrite look_set by discriminate. destruct (rpath_eqb_spec (c :: e) r) as [<-|_]; [|exact (proj2 G r)]. right. right. left. exists n, (part ++ rest). split; [exact H|]. split; [exact L|]. right. exists part, rest. split; reflexivity.
Qed.
Lemma good_removed st st' n k q : good st -> In (n, k) ms -> lies_at cwd n q -> os_remove st q = (st', None) -> good st'.
Proof using Fi Up.
  intros G H L E. unfold os_remove in E. destruct (look st q) as [[y| |]|] eqn:Lq; try discriminate E; [|destruct (room_at st n k q G H L) as [X|(z & X)]; rewrite Lq in X; discriminate X].
  injection E as <-. assert (Nq := lies_nonnil cwd n q L). destruct q as [|c e]; [now elim Nq|]. split; [apply removed_wf; [exact (proj1 G)|rewrite Lq; discriminate]|]. intros r. rewrite look_removed. destruct (rpath_eqb_spec r (c :: e)) as [->|_]; [|exact (proj2 G r)].
  destruct (a_file n k H) as (x & ->). right. right. left. exists n, x. split; [exact H|]. split; [exact L|]. now left.
Qed.
Lemma good_zip st y : good st -> good (set_node st out y).
Proof using Ar Lo Lt Up.
  intros G. split; [exact (set_wf_dir st _ d y (proj1 G) (good_d st G) (good_out st G))|]. intros r. rewrite look_set by discriminate. destruct (rpath_eqb_spec out r) as [<-|_]; [|exact (proj2 G r)]. right. right. right. split; [reflexivity|]. right. now exists y.
Qed.
Lemma good_cleared st st' : good st -> (if exists_ st out then os_remove st out else (st, None)) = (st', None) -> good st'.
Proof using.
  intros G E. destruct (cleared st _ d st' (proj1 G) E) as (_ & L & W1). split; [exact W1|]. intros r. rewrite L. destruct (rpath_eqb_spec r out) as [->|_]; [|exact (proj2 G r)]. right. right. right. split; [reflexivity|]. now left.
Qed.
Lemma dirs_made st fs1 q : wf_fs st -> unblocked st (tl q) -> (if exists_ st (tl q) then (st, Ok tt) else mkdir_p st (tl q)) = (fs1, Ok tt) -> made st fs1 (tl q).
Proof using.
  clear. intros W Ub E. unfold exists_ in E. destruct (look st (tl q)) as [v|] eqn:Lq.
  - injection E as <-. split; [|unfold same_at; reflexivity]. apply dir_all_above; [exact W|]. destruct v as [y| |]; [|exact Lq|]; exfalso; apply (Ub (tl q) (below_refl _)); eexists; (split; [exact Lq|discriminate]).
  - assert (S1 := mkdir_p_spec st (tl q) W). rewrite E in S1. apply S1.
Qed.
Lemma good_extract st m st' : good st -> In m ms -> extract_moment cwd st m st' -> good st'.
Proof using Fi Up.
  intros G H M. destruct m as (n, k). destruct (proj1 (proj2 Up) n k H) as (_ & _ & q0 & L & _). assert (Rs := lies_resolve cwd n q0 L). assert (Rq : forall q, resolve cwd (fst (n, k)) = Ok q -> q = q0) by (cbn [fst]; rewrite Rs; intros q E; now injection E as <-).
  assert (Ub : unblocked st (tl q0)) by (intros r B (v & E & Nv); destruct (room_up st n k q0 r G H L B) as [X|X]; rewrite E in X; [discriminate X|injection X as ->; now apply Nv]).
  assert (Wr : forall fs1 part rest, (if exists_ st (tl q0) then (st, Ok tt) else mkdir_p st (tl q0)) = (fs1, Ok tt) -> k = TFile (part ++ rest) -> good (set_node fs1 q0 part)).
  { intros fs1 part rest E ->. assert (Md := dirs_made st fs1 q0 (proj1 G) Ub E). assert (G1 := good_dirs st fs1 n _ q0 G H L (made_left st fs1 (tl q0) [] (proj1 G) Ub Md)). assert (Nq := lies_nonnil cwd n q0 L). destruct q0 as [|c e]; [now elim Nq|].
    apply (good_part fs1 n (part ++ rest) part rest c e G1 H L eq_refl). apply (proj1 Md). cbn [tl]. apply below_refl. }
  destruct M as [-> | q Eq _ M | q fs1 written rest Eq E _ Ek -> | ->].
  - exact G.
  - apply Rq in Eq. subst q. exact (good_dirs st st' n k q0 G H L (moments_left st (tl q0) (proj1 G) st' M)).
  - apply Rq in Eq. subst q. exact (Wr fs1 written rest E Ek).
  - destruct (a_file n k H) as (x & ->). unfold extract. cbn [fst snd]. rewrite Rs. destruct (if exists_ st (tl q0) then (st, Ok tt) else mkdir_p st (tl q0)) as [fs1 [[]|e]] eqn:E.
    + assert (Md := dirs_made st fs1 q0 (proj1 G) Ub E). assert (G1 := good_dirs st fs1 n _ q0 G H L (made_left st fs1 (tl q0) [] (proj1 G) Ub Md)). destruct (can_write fs1 q0) as [[]|e]; cbn [fst]; [|exact G1]. apply (Wr fs1 x [] eq_refl). now rewrite app_nil_r.
    + exfalso. destruct (exists_ st (tl q0)); [discriminate E|]. assert (S1 := mkdir_p_spec st (tl q0) (proj1 G)). rewrite E in S1. destruct S1 as (_ & [(_ & O)|(_ & d' & B & _ & O)]); [exact (Ub _ (below_refl _) O)|exact (Ub _ B O)].
Qed.
Lemma good_unpack st l st' : unpack_moment cwd st l st' -> good st -> incl l ms -> good st'.
Proof using Fi Up.
  intros M. induction M as [st|st m l st' M|st m l st1 st' E M IH]; intros G Hl; [exact G| |].
  - exact (good_extract st m st' G (Hl m (or_introl eq_refl)) M).
  - apply IH; [|intros x Hx; apply Hl; now right]. apply (good_extract st m st1 G (Hl m (or_introl eq_refl))). apply ex_end. now rewrite E.
Qed.
Lemma good_all st l st' e : extract_all cwd st l = (st', e) -> good st -> incl l ms -> good st'.
Proof using Fi Up.
  revert st. induction l as [|m l IH]; intros st E G Hl; cbn [extract_all] in E; [now injection E as <- _|].
  assert (G1 : good (fst (extract cwd st m))) by (apply (good_extract st m _ G (Hl m (or_introl eq_refl))); now apply ex_end). destruct (extract cwd st m) as [st1 [e1|]]; cbn [fst] in G1.
  - now injection E as <- _.
  - apply (IH st1 E G1). intros x Hx. apply Hl. now right.
Qed.
Lemma good_pack st l st' : pack_moment cwd st l st' -> good st -> incl l ms -> good st'.
Proof using Fi Up.
  intros M. induction M as [st|st m l q st1 st' Eq E M IH]; intros G Hl; [exact G|]. apply IH; [|intros x Hx; apply Hl; now right]. destruct m as (n, k). assert (H := Hl _ (or_introl eq_refl)). destruct (proj1 (proj2 Up) n k H) as (_ & _ & q0 & L & _).
  cbn [fst] in Eq. rewrite (lies_resolve cwd n q0 L) in Eq. injection Eq as <-. exact (good_removed st st1 n k q0 G H L E).
Qed.
Lemma good_unpackable st : good st -> unpackable cwd st out (name :: d) ms.
Proof using Fi Up.
  intros G. split; [exact (proj1 Up)|]. split; [|exact (proj2 (proj2 Up))]. intros n k H. destruct (proj1 (proj2 Up) n k H) as (K & En & q & L & Nb & Nt & _). split; [exact K|]. split; [exact En|]. exists q. split; [exact L|]. split; [exact Nb|]. split; [exact Nt|].
  split; [intros r B; exact (room_up st n k q r G H L B)|]. split; [|intros _; exact (room_at st n k q G H L)]. intros ->. destruct (a_file n _ H) as (x & X). discriminate X.
Qed.
Lemma member_dec r : (exists n k, In (n, k) ms /\ lies_at cwd n r) \/ (forall n k, In (n, k) ms -> ~ lies_at cwd n r).
Proof using Up.
  assert (Lm : forall n k, In (n, k) ms -> exists q, lies_at cwd n q) by (intros n k H; destruct (proj1 (proj2 Up) n k H) as (_ & _ & q & L & _); now exists q).
  revert Lm. clear. induction ms as [|(n, k) l IH]; intros Lm; [right; intros n k []|]. destruct (Lm n k (or_introl eq_refl)) as (q & L). destruct (rpath_eqb_spec q r) as [->|N]; [left; exists n, k; split; [now left|exact L]|].
  destruct IH as [(n' & k' & H & L')|H]; [intros n' k' H; exact (Lm n' k' (or_intror H))|left; exists n', k'; split; [now right|exact L']|]. right. intros n' k' [E|H'] L'; [injection E as <- <-; apply N; exact (lies_unique cwd n q r L L')|exact (H n' k' H' L')].
Qed.
Lemma above_dec r : above cwd ms r \/ ~ above cwd ms r.
Proof using Up.
  assert (Lm : forall n k, In (n, k) ms -> exists q, lies_at cwd n q) by (intros n k H; destruct (proj1 (proj2 Up) n k H) as (_ & _ & q & L & _); now exists q).
  revert Lm. clear. induction ms as [|(n, k) l IH]; intros Lm; [right; intros (n & k & q & [] & _)|]. destruct (Lm n k (or_introl eq_refl)) as (q & L). destruct (at_or_below r (tl q)) eqn:B.
  - apply at_or_below_spec in B. left. exists n, k, q. split; [now left|]. split; assumption.
  - destruct IH as [(n' & k' & q' & H & R)|H]; [intros n' k' H; exact (Lm n' k' (or_intror H))|left; exists n', k', q'; split; [now right|exact R]|]. right. intros (n' & k' & q' & [E|H'] & L' & B').
    + injection E as <- <-. rewrite <- (lies_unique cwd n q q' L L') in B'. apply at_or_below_spec in B'. rewrite B in B'. discriminate B'.
    + apply H. exists n', k', q'. split; [exact H'|split; assumption].
Qed.
(** a complete run *)
Lemma good_run cutoff st : good st ->
  exists f, tar_main (dir ++ name) true cutoff st = (f, None) /\ good f /\ look f out = Some (KFile (dozip ZC [] files)) /\ (forall n k q, In (n, k) ms -> lies_at cwd n q -> look f q = None) /\ (forall r, above cwd ms r -> look f r = Some KDir) /\
    (forall r, r <> out -> ~ above cwd ms r -> (forall n k, In (n, k) ms -> ~ lies_at cwd n r) -> look f r = look fs0 r).
Proof using cwd_proper Ar Lt Lo Un Fi Up.
  intros G. destruct (unpack_result cwd ZC torn untar cwd_proper st dir name d (output_name name) b ms files cutoff (proj1 G) Ar (proj2 (zip_named_output name _) eq_refl) (good_tar st G) (good_out st G) Un Fi (good_unpackable st G)) as (f & E & Lz & _ & Hm & Ha & Hr).
  assert (Hs : forall r, r <> out -> ~ above cwd ms r -> (forall n k, In (n, k) ms -> ~ lies_at cwd n r) -> look f r = look fs0 r).
  { intros r N Na Nm. rewrite (Hr r N Na Nm). destruct (proj2 G r) as [X|[(X & _)|[(n & x & H & L & _)|(X & _)]]]; [exact X|now elim Na|exfalso; exact (Nm n _ H L)|now elim N]. }
  exists f. split; [exact E|]. split; [|split; [exact Lz|split; [exact Hm|split; [exact Ha|exact Hs]]]].
  assert (Dir : forall q, look st q = Some KDir -> look f q = Some KDir).
  { intros q Lq. destruct (above_dec q) as [A|Na]; [exact (Ha q A)|]. rewrite Hr; [exact Lq| |exact Na|].
    - intros ->. exact (good_out st G Lq).
    - intros n k H L. destruct (room_at st n k q G H L) as [X|(x & X)]; rewrite Lq in X; discriminate X. }
  split.
  - intros c q v Lv. destruct (member_dec (c :: q)) as [(n & k & H & L)|Nm]; [rewrite (Hm n k _ H L) in Lv; discriminate Lv|]. destruct (above_dec (c :: q)) as [(n & k & q' & H & L & B)|Na].
    + apply Ha. exists n, k, q'. split; [exact H|]. split; [exact L|]. destruct B as (l & ->). exists (l ++ [c]). now rewrite <- app_assoc.
    + destruct (rpath_eqb_spec (c :: q) out) as [Eo|No]; [injection Eo as _ ->; exact (Dir d (good_d st G))|]. apply Dir. rewrite (Hr _ No Na Nm) in Lv. exact (proj1 G c q v Lv).
  - intros r. destruct (rpath_eqb_spec r out) as [->|No]; [right; right; right; split; [reflexivity|]; right; eexists; exact Lz|]. destruct (member_dec r) as [(n & k & H & L)|Nm].
    + destruct (a_file n k H) as (x & ->). right. right. left. exists n, x. split; [exact H|]. split; [exact L|]. left. exact (Hm n _ r H L).
    + destruct (above_dec r) as [A|Na]; [|left; exact (Hs r No Na Nm)]. rewrite (Ha r A). destruct A as (n & k & q & H & L & B). destruct (proj1 (proj2 Up) n k H) as (_ & _ & q' & L' & _ & _ & U1 & _). assert (B' := B). rewrite (lies_unique cwd n q q' L L') in B'. destruct (U1 r B') as [X|X].
      * right. left. split; [|split; [exact X|reflexivity]]. exists n, k, q. split; [exact H|split; assumption].
      * left. now symmetry.
Qed.
Lemma good_moment cutoff st st' : good st -> tar_moment (dir ++ name) true cutoff st st' -> good st'.
Proof using cwd_proper Ar Lt Lo Un Fi Up.
  intros G M. assert (A' := Ar). destruct A' as (Dr & _ & _ & P). destruct (output_proper name P) as (Po & _).
  assert (R : forall q, resolve cwd (output_name (dir ++ name)) = Ok q -> q = out) by (intros q; rewrite (output_child dir name Dr), (resolve_child cwd cwd_proper dir name d Ar _ Po); intros E; now injection E as <-).
  assert (T : forall g x dm, good g -> open_tar cwd untar g (dir ++ name) = Ok (x, dm) -> x = ms).
  { intros g x dm Gg E. unfold open_tar in E. destruct (is_nil (dir ++ name)); [discriminate E|]. rewrite (resolve_child cwd cwd_proper dir name d Ar name P) in E. cbn [bind] in E. rewrite (good_tar g Gg), Un in E. now injection E as <- _. }
  destruct M as [-> | q Eq E Rm|q fs1 y Eq E C U -> | q fs1 y l dm _ Eq E C U O M|q fs1 y l fs3 st3 y' _ Eq E C U O X M U' -> | M].
  - exact G.
  - apply R in Eq. subst q. apply (good_cleared st st' G). now rewrite E.
  - apply R in Eq. subst q. apply good_zip. exact (good_cleared st fs1 G E).
  - apply R in Eq. subst q. assert (G1 := good_zip fs1 y (good_cleared st fs1 G E)). apply (T _ _ _ G1) in O. subst l. exact (good_unpack _ ms st' M G1 (incl_refl _)).
  - apply R in Eq. subst q. assert (G1 := good_zip fs1 y (good_cleared st fs1 G E)). apply (T _ _ _ G1) in O. subst l. apply good_zip. apply (good_pack fs3 ms st3 M); [|apply incl_refl]. exact (good_all _ ms fs3 None X G1 (incl_refl _)).
  - destruct (good_run cutoff st G) as (f & E & Gf & _). rewrite E in M. cbn [fst] in M. now subst.
Qed.
Lemma good_killed cutoff st st' : good st -> killed_runs (tar_moment (dir ++ name) true cutoff) st st' -> good st'.
Proof using cwd_proper Ar Lt Lo Un Fi Up. intros G K. induction K as [st|st st1 st' M K IH]; [exact G|]. apply IH. exact (good_moment cutoff st st1 G M). Qed.
Lemma runs_same cutoff st : good st -> exists f f', tar_main (dir ++ name) true cutoff fs0 = (f, None) /\ tar_main (dir ++ name) true cutoff st = (f', None) /\ forall r, look f' r = look f r.
Proof using cwd_proper W0 Ar Lt Lo Un Fi Up.
  intros G. destruct (good_run cutoff fs0 good_refl) as (f & E & _ & Lz & Hm & Ha & Hr). destruct (good_run cutoff st G) as (f' & E' & _ & Lz' & Hm' & Ha' & Hr'). exists f, f'. split; [exact E|]. split; [exact E'|]. intros r.
  destruct (rpath_eqb_spec r out) as [->|No]; [now rewrite Lz, Lz'|]. destruct (member_dec r) as [(n & k & H & L)|Nm]; [now rewrite (Hm n k r H L), (Hm' n k r H L)|]. destruct (above_dec r) as [A|Na]; [now rewrite (Ha r A), (Ha' r A)|]. now rewrite (Hr r No Na Nm), (Hr' r No Na Nm).
Qed.
End U.
(** C120 with --dont-stream, for tar files of regular files that can be unpacked: whenever the runs are killed, what they leave on the disk besides the output are the directories above the members
    and members, whole or the beginning of them; files that had the name of a member may be lost. *)
Theorem C120_unpack_killed : forall fs dir name d out b ms files cutoff st, wf_fs fs -> argument cwd dir name d -> zip_named name out ->
  look fs (name :: d) = Some (KFile b) -> look fs (out :: d) <> Some KDir -> untar b = Ok (ms, None) -> files_of ms files -> unpackable cwd fs (out :: d) (name :: d) ms ->
  killed_runs (tar_moment (dir ++ name) true cutoff) fs st -> remains ms (out :: d) fs st.
Proof.
  intros fs dir name d out b ms files cutoff st W A Zn L No U F Up K. apply zip_named_output in Zn. subst out. exact (proj2 (good_killed fs dir name d b ms files A L No U F Up cutoff fs st (good_refl fs name d ms W) K)).
Qed.
(** C120 with --dont-stream: however often it was killed before, a run that is not killed ends as if there had been no other, with the same files, byte for byte. *)
Theorem C120_unpack_again : forall fs dir name d out b ms files cutoff st, wf_fs fs -> argument cwd dir name d -> zip_named name out ->
  look fs (name :: d) = Some (KFile b) -> look fs (out :: d) <> Some KDir -> untar b = Ok (ms, None) -> files_of ms files -> unpackable cwd fs (out :: d) (name :: d) ms ->
  killed_runs (tar_moment (dir ++ name) true cutoff) fs st ->
  exists f f', tar_main (dir ++ name) true cutoff fs = (f, None) /\ tar_main (dir ++ name) true cutoff st = (f', None) /\ forall r, look f' r = look f r.
Proof.
  intros fs dir name d out b ms files cutoff st W A Zn L No U F Up K. apply zip_named_output in Zn. subst out.
  exact (runs_same fs dir name d b ms files W A L No U F Up cutoff st (good_killed fs dir name d b ms files A L No U F Up cutoff fs st (good_refl fs name d ms W) K)).
Qed.
(** Expected: the run needs the disk for unpacking only for its own duration (os.remove).  Refuted: a run with --dont-stream that is killed after unpacking leaves all the members in the current directory. *)
Theorem C120_leftovers_refuted : forall fs dir name d out b ms files cutoff x, wf_fs fs -> argument cwd dir name d -> zip_named name out ->
  look fs (name :: d) = Some (KFile b) -> look fs (out :: d) <> Some KDir -> untar b = Ok (ms, None) -> files_of ms files -> unpackable cwd fs (out :: d) (name :: d) ms -> unfinished x ->
  exists st, tar_moment (dir ++ name) true cutoff fs st /\ forall n c q, In (n, TFile c) ms -> lies_at cwd n q -> look st q = Some (KFile c).
Proof.
  intros fs dir name d out b ms files cutoff x W A Zn L No U F Up Ux. apply zip_named_output in Zn. subst out.
  assert (A' := A). destruct A' as (Dr & _ & _ & P). destruct (output_proper name P) as (Po & Nn). assert (D : look fs d = Some KDir) by exact (W _ _ _ L).
  assert (E : exists fs1, (if exists_ fs (output_name name :: d) then os_remove fs (output_name name :: d) else (fs, None)) = (fs1, None)).
  { unfold exists_, os_remove. destruct (look fs (output_name name :: d)) as [[y| |]|]; [eexists; reflexivity|now elim No|eexists; reflexivity|eexists; reflexivity]. }
  destruct E as (fs1 & E). assert (G1 := good_cleared fs name d ms fs fs1 (good_refl fs name d ms W) E). destruct (cleared fs _ d fs1 W E) as (_ & L1 & W1).
  assert (C : can_create fs1 (output_name name :: d) = Ok tt).
  { cbn [can_create]. assert (S1 := search_spec fs1 d W1). assert (D1 := good_d fs dir name d b ms A L Up fs1 G1). destruct (search fs1 d) as [[]|e].
    - cbn [bind]. rewrite L1. destruct (rpath_eqb_spec (output_name name :: d) (output_name name :: d)) as [_|X]; [reflexivity|now elim X].
    - exfalso. destruct S1 as [(_ & B & _)|(_ & d' & B & (k & K' & NK))]; [rewrite D1 in B; discriminate B|]. rewrite (dir_all_above _ _ W1 D1 d' B) in K'. injection K' as <-. now apply NK. }
  set (g := set_node fs1 (output_name name :: d) x). assert (G2 : good fs name d ms g) by exact (good_zip fs dir name d b ms A L No Up fs1 x G1).
  destruct (extract_many cwd ms g (proj1 G2) (proj1 Up) (fun m H => good_room fs name d ms files F Up g m G2 H) (proj2 (proj2 Up))) as (st & Ex & _ & Af). exists st. split.
  - apply (tm_unpacking cwd ZC torn untar unfinished (dir ++ name) true cutoff fs st (output_name name :: d) fs1 x ms None eq_refl); [|exact E|exact C|exact Ux| |].
    + now rewrite (output_child dir name Dr), (resolve_child cwd cwd_proper dir name d A _ Po).
    + fold g. unfold open_tar. destruct (is_nil (dir ++ name)) eqn:Nl; [exfalso; destruct dir; [destruct name; [exact (proj1 P eq_refl)|discriminate Nl]|discriminate Nl]|]. rewrite (resolve_child cwd cwd_proper dir name d A name P). cbn [bind]. now rewrite (good_tar fs dir name d b ms A L Up g G2), U.
    + fold g. clear -Ex. revert Ex. generalize g. induction ms as [|m l IH]; intros g0 Ex; cbn [extract_all] in Ex; [injection Ex as ->; apply un_done|]. destruct (extract cwd g0 m) as [g1 [e|]] eqn:E1; [discriminate Ex|]. apply (un_later cwd g0 m l g1 st E1). now apply IH.
  - intros n c q H Lq. destruct (Af q) as [(v & Pv & ->)|(Nv & _)]; [|exfalso; apply (Nv (KFile c)); left; exists n, c; split; [exact H|split; [exact Lq|reflexivity]]]. destruct Pv as [(n' & c' & H' & L' & ->)|(-> & [Ab|(n' & H' & L')])].
    + assert (n' = n) as -> by exact (lies_inj cwd n' n q L' Lq). now rewrite (same_data fs name d ms Up n c c' H H').
    + exfalso. exact (not_above fs name d ms files F Up n _ q H Lq Ab).
    + exfalso. destruct (a_file ms files F n' _ H') as (y & Y). discriminate Y.
Qed.
End P.
