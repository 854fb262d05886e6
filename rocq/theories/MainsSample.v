(** * Property C126: whether the scripts that split and sample stores give the same result again *)
From Coq Require Import Sorted.
From Verif Require Import Prelude PyStr SortLib TextLib Utf8 Order Range Params ParamsSpec ParamsProofs ParamsGet ParamsGetProps ParamsEq SubNamespaces ParamsEval ParamsEvalProps Fs FsProofs FsProps PathLists PathListsProps Decimals Io IoProps KeyValue KeyValueProps KvParams KvParamsProps OsPath OsPathSpec OsPathProofs Scripts ScriptsProps Mains MainsProofs MainsProps.
From Verif Require AnnotatedTextProps.

(** ** Specification *)
(** Parameters and files with which downsample_key_value_store (docstring at downsample_key_value_store.py:3-21) can do its work: the input is a zip store holding the pairs (k, val k) for k in ks, at the path [qin]. *)
Definition sample_setup (cwd : list str) (ZC : zip_codec) (p : pv) (fs : list (list str * fnode)) (qin : list str) (ks : list str) (val : str -> bytes) (n : nat) (s : Z) (out : list str) : Prop :=
  wf_params p /\ wf_fs fs /\ (exists ns, Typed p !!"input" !!"zip" ns /\ names_path cwd ns !!"path" qin) /\ holds ZC fs qin ks val /\ (forall k, In k ks -> plain_key k) /\
  (exists nv, Stored p !!"num_to_sample" nv /\ int_value nv (Z.of_nat n)) /\ n <> 0 /\ sample_seed p s /\
  exists c d, out = c :: d /\ names_path cwd p !!"output_zip_path" out /\ unblocked fs d /\ free fs out /\ out <> qin.
(** The same for split_key_value_store with num_slices (split_key_value_store.py:1-46). *)
Definition split_setup (cwd : list str) (ZC : zip_codec) (p : pv) (fs : list (list str * fnode)) (qin : list str) (ks : list str) (val : str -> bytes) (n : nat) (seed : option Z) (dir : list str) : Prop :=
  wf_params p /\ wf_fs fs /\ (exists ns, Typed p !!"input" !!"zip" ns /\ names_path cwd ns !!"path" qin) /\ holds ZC fs qin ks val /\ (forall k, In k ks -> plain_key k) /\
  (exists nv, Stored p !!"num_slices" nv /\ int_value nv (Z.of_nat n)) /\ n <> 0 /\ Missing p !!"explicit_split" /\ seed_given p seed /\
  names_path cwd p !!"output_dir" dir /\ unblocked fs dir /\ Forall encodable dir /\
  (forall o, o = !!"_slices.txt" :: dir \/ (exists i, i < n /\ o = slice_name i :: dir) -> free fs o /\ o <> qin).
(** A shuffle that only looks at positions, as Python's random.shuffle does: renaming the elements renames the result. *)
Definition by_position (shuffle : list str -> list str) : Prop := forall f l, shuffle (map f l) = map f (shuffle l).

(** ** Lemmas *)
Lemma sorted_unique : forall l l' : list str, StronglySorted (fun a b => str_ltb a b = true) l -> StronglySorted (fun a b => str_ltb a b = true) l' -> Permutation l l' -> l = l'.
Proof.
  induction l as [|x l IH]; intros l' S1 S2 P; [symmetry; now apply Permutation_nil|]. destruct l' as [|y l']; [apply Permutation_sym, Permutation_nil in P; discriminate|].
  apply StronglySorted_inv in S1. destruct S1 as (S1 & F1). apply StronglySorted_inv in S2. destruct S2 as (S2 & F2). rewrite Forall_forall in F1, F2.
  assert (x = y) as <-.
  { assert (In y (x :: l)) as [E|I] by (apply (Permutation_in _ (Permutation_sym P)); now left); [assumption|]. assert (In x (y :: l')) as [E|J] by (apply (Permutation_in _ P); now left); [now symmetry|].
    assert (A := F1 y I). assert (B := F2 x J). apply AnnotatedTextProps.str_ltb_asym in A. congruence. }
  f_equal. apply IH; [assumption|assumption|]. now apply Permutation_cons_inv in P.
Qed.
Lemma holds_ext ZC fs q ks val val' : holds ZC fs q ks val -> (forall k, In k ks -> val k = val' k) -> holds ZC fs q ks val'.
Proof. intros (z & E & K & I & O) H. exists z. split; [exact E|]. split; [exact K|]. split; [|exact O]. intros k Ik. rewrite <- (H k Ik). now apply I. Qed.
Lemma holds_agree ZC fs1 fs2 q1 q2 ks1 ks2 val1 val2 k : holds ZC fs1 q1 ks1 val1 -> holds ZC fs2 q2 ks2 val2 -> look fs1 q1 = look fs2 q2 -> In k ks1 -> In k ks2 -> val1 k = val2 k.
Proof.
  intros (z1 & E1 & _ & I1 & _) (z2 & E2 & _ & I2 & _) L H1 H2. assert (disk_at ZC fs1 q1 = disk_at ZC fs2 q2) as D by (unfold disk_at; now rewrite L). rewrite D, E2 in E1. injection E1 as ->.
  destruct (I1 k H1) as (A & _). destruct (I2 k H2) as (B & _). congruence.
Qed.
Lemma key_list_same ZC fs1 fs2 q1 q2 l1 l2 : look fs1 q1 = look fs2 q2 -> key_list ZC fs1 q1 l1 -> key_list ZC fs2 q2 l2 -> l1 = l2.
Proof. intros L (b1 & a1 & A1 & B1 & C1) (b2 & a2 & A2 & B2 & C2). rewrite L, A2 in A1. injection A1 as ->. rewrite B1 in B2. injection B2 as ->. congruence. Qed.
Lemma rev_not_same (l : list str) : NoDup l -> 2 <= length l -> rev l <> l.
Proof.
  intros N L E. destruct l as [|a l]; [cbn in L; lia|]. destruct (rev l) as [|b r] eqn:R; [apply (f_equal (@rev str)) in R; rewrite rev_involutive in R; subst l; cbn in L; lia|].
  cbn [rev] in E. rewrite R in E. cbn [app] in E. injection E as Eb _. inversion N as [|? ? N1 _]; subst. apply N1. apply in_rev. rewrite R. now left.
Qed.

Section Sample.
Variable X : Type.
Notation obj := (kv_obj X).
Variable import_module : str -> res obj.
Variable other_eval : str -> list (str * obj) -> res obj.
Variable builtin : str -> option obj.
Variable locals_of : pv -> str -> list (str * obj).
Variable x_is_class : X -> bool.
Variable x_from_parameters : X -> option (pv -> res obj).
Variable x_construct : X -> res obj.
Variable x_callable : X -> bool.
Variable x_call : X -> pv -> res obj.
Variables x_is_linear x_is_source x_is_sink : X -> bool.
Variable cwd : list str.
Variable other_globals : list (str * obj).
Variable ZC : zip_codec.
Variable torn : bytes.
Variables seeded_shuffle random_shuffle : Z -> list str -> list str.
Variable other_source : obj -> list (list str * fnode) -> res (source bytes).
Variable other_sink : obj -> list (list str * fnode) -> (list (list str * fnode) -> stream value) -> list (list str * fnode) * option exn.
Variable oeq : pv -> pv -> bool.
(** The scripts in a process in which Python's sets of keys are iterated in the order [so]. *)
Notation downsample_in so := (downsample_main X import_module other_eval builtin locals_of x_is_class x_from_parameters x_construct x_callable x_call x_is_source cwd other_globals ZC torn so random_shuffle other_source).
Notation split_in so := (split_main X import_module other_eval builtin locals_of x_is_class x_from_parameters x_construct x_callable x_call x_is_linear cwd other_globals ZC torn so seeded_shuffle other_source oeq).
Notation holds := (holds ZC).
Notation set_like so := (forall l : list str, Permutation (so l) l).
Hypothesis seeded_perm : forall z l, Permutation (seeded_shuffle z l) l.
Hypothesis random_perm : forall z l, Permutation (random_shuffle z l) l.
Hypothesis cwd_proper : Forall proper cwd.

Lemma sample_run so p fs qin ks val n s out : set_like so -> sample_setup cwd ZC p fs qin ks val n s out ->
  exists fs' kept, downsample_in so p fs = (fs', None) /\ holds fs' out kept val /\ NoDup kept /\ incl kept ks /\ length kept = Nat.min n (length ks) /\
    (exists l, key_list ZC fs qin l /\ kept = firstn n (random_shuffle s l)) /\ key_list ZC fs' out (so kept).
Proof using random_perm cwd_proper x_is_linear seeded_shuffle other_sink.
  clear oeq seeded_perm. intros PO (W & F & (ns & T & Hin) & C & PK & (nv & Sn & In_) & N0 & Sd & c & d & -> & Ho & U & Fr & Nq).
  destruct (C86_which X import_module other_eval builtin locals_of x_is_class x_from_parameters x_construct x_callable x_call x_is_linear x_is_source cwd other_globals ZC torn so seeded_shuffle random_shuffle other_source other_sink PO random_perm cwd_proper
    p fs ns qin ks val nv n s c d W F T Hin C PK Sn In_ N0 Sd Ho U Fr Nq) as (fs' & kept & E & _ & H & Nk & Ik & Lk & _ & _ & Wl & Ko).
  exists fs', kept. auto 10.
Qed.
(** C126: sampling the same file with the same seed and the same num_to_sample gives the same pairs, whatever else differs: the process (with its order of sets), the other
    parameters, the other files, the output. *)
Theorem C126_sample_repeatable : forall so1 so2 p1 p2 fs1 fs2 q1 q2 ks1 ks2 val1 val2 n s out1 out2, set_like so1 -> set_like so2 ->
  sample_setup cwd ZC p1 fs1 q1 ks1 val1 n s out1 -> sample_setup cwd ZC p2 fs2 q2 ks2 val2 n s out2 -> look fs1 q1 = look fs2 q2 ->
  exists fs1' fs2' kept, downsample_in so1 p1 fs1 = (fs1', None) /\ downsample_in so2 p2 fs2 = (fs2', None) /\
    holds fs1' out1 kept val1 /\ holds fs2' out2 kept val1 /\ length kept = Nat.min n (length ks1).
Proof using random_perm cwd_proper x_is_linear seeded_shuffle other_sink.
  clear oeq seeded_perm. intros so1 so2 p1 p2 fs1 fs2 q1 q2 ks1 ks2 val1 val2 n s out1 out2 P1 P2 S1 S2 L.
  destruct (sample_run so1 p1 fs1 q1 ks1 val1 n s out1 P1 S1) as (fs1' & kept & E1 & H1 & _ & I1 & L1 & (l1 & K1 & W1) & _).
  destruct (sample_run so2 p2 fs2 q2 ks2 val2 n s out2 P2 S2) as (fs2' & kept2 & E2 & H2 & _ & I2 & _ & (l2 & K2 & W2) & _).
  assert (l1 = l2) as <- by exact (key_list_same ZC fs1 fs2 q1 q2 l1 l2 L K1 K2). rewrite <- W1 in W2. subst kept2.
  exists fs1', fs2', kept. split; [exact E1|]. split; [exact E2|]. split; [exact H1|]. split; [|exact L1]. apply (holds_ext ZC fs2' out2 kept val2); [exact H2|].
  intros k Ik. symmetry. destruct S1 as (_ & _ & _ & C1 & _). destruct S2 as (_ & _ & _ & C2 & _). exact (holds_agree ZC fs1 fs2 q1 q2 ks1 ks2 val1 val2 k C1 C2 L (I1 k Ik) (I2 k Ik)).
Qed.
(** "The ordering of the key-value pairs in the output is undefined but deterministic."  Refuted: the list of keys of the output is that of a Python set of strings, whose order changes from process to
    process (unless PYTHONHASHSEED is set).  Whenever two pairs or more are kept, there are two orders of sets for which the same run gives two different lists of keys. *)
Theorem C126_output_order_refuted : forall p fs qin ks val n s out, sample_setup cwd ZC p fs qin ks val n s out -> 2 <= n -> 2 <= length ks ->
  exists so1 so2 fs1' fs2' l1 l2, set_like so1 /\ set_like so2 /\ downsample_in so1 p fs = (fs1', None) /\ downsample_in so2 p fs = (fs2', None) /\
    key_list ZC fs1' out l1 /\ key_list ZC fs2' out l2 /\ l1 <> l2.
Proof using random_perm cwd_proper x_is_linear seeded_shuffle other_sink.
  clear oeq seeded_perm. intros p fs qin ks val n s out Se N2 L2. assert (P1 : set_like (fun l : list str => l)) by (intros l; apply Permutation_refl). assert (P2 : set_like (@rev str)) by (intros l; symmetry; apply Permutation_rev).
  destruct (sample_run _ p fs qin ks val n s out P1 Se) as (fs1' & kept & E1 & _ & Nk & _ & Lk & (l1 & K1 & W1) & O1).
  destruct (sample_run _ p fs qin ks val n s out P2 Se) as (fs2' & kept2 & E2 & _ & _ & _ & _ & (l2 & K2 & W2) & O2).
  assert (l1 = l2) as <- by exact (key_list_same ZC fs fs qin qin l1 l2 eq_refl K1 K2). rewrite <- W1 in W2. subst kept2.
  exists (fun l => l), (@rev str), fs1', fs2', kept, (rev kept). split; [exact P1|]. split; [exact P2|]. split; [exact E1|]. split; [exact E2|]. split; [exact O1|]. split; [exact O2|].
  intros E. apply (rev_not_same kept Nk); [rewrite Lk; clear -N2 L2; lia|now symmetry].
Qed.
(** Refuted: the sample depends on the pairs only.  The keys are not sorted before they are shuffled (split_key_value_store does that: "guarantee deterministic iteration order"), so two stores
    with the same two pairs, listed in different orders - such as two outputs of the run above -, give different samples of size 1, with the same seed. *)
Theorem C126_same_pairs_refuted : forall so1 so2 p1 p2 fs1 fs2 q1 q2 a b val s out1 out2, set_like so1 -> set_like so2 -> by_position (random_shuffle s) ->
  sample_setup cwd ZC p1 fs1 q1 [a; b] val 1 s out1 -> sample_setup cwd ZC p2 fs2 q2 [a; b] val 1 s out2 -> key_list ZC fs1 q1 [a; b] -> key_list ZC fs2 q2 [b; a] ->
  exists fs1' fs2' k1 k2, downsample_in so1 p1 fs1 = (fs1', None) /\ downsample_in so2 p2 fs2 = (fs2', None) /\ holds fs1' out1 [k1] val /\ holds fs2' out2 [k2] val /\ k1 <> k2.
Proof using random_perm cwd_proper x_is_linear seeded_shuffle other_sink.
  clear oeq seeded_perm. intros so1 so2 p1 p2 fs1 fs2 q1 q2 a b val s out1 out2 P1 P2 BP S1 S2 K1 K2.
  destruct (sample_run so1 p1 fs1 q1 _ val 1 s out1 P1 S1) as (fs1' & kept1 & E1 & H1 & _ & I1 & L1 & (l1 & K1' & W1) & _).
  destruct (sample_run so2 p2 fs2 q2 _ val 1 s out2 P2 S2) as (fs2' & kept2 & E2 & H2 & _ & I2 & L2 & (l2 & K2' & W2) & _).
  assert (l1 = [a; b]) as -> by exact (key_list_same ZC fs1 fs1 q1 q1 _ _ eq_refl K1' K1). assert (l2 = [b; a]) as -> by exact (key_list_same ZC fs2 fs2 q2 q2 _ _ eq_refl K2' K2).
  assert (AB : a <> b). { destruct S1 as (_ & _ & _ & (z & _ & (ks' & _ & N & P) & _) & _). apply (Permutation_NoDup P) in N. inversion N as [|? ? N1 _]; subst. intros ->. apply N1. now left. }
  destruct kept1 as [|k1 [|]]; try discriminate L1. destruct kept2 as [|k2 [|]]; try discriminate L2.
  exists fs1', fs2', k1, k2. split; [exact E1|]. split; [exact E2|]. split; [exact H1|]. split; [exact H2|]. intros ->.
  set (f := fun k => if str_eqb k a then b else a).
  assert (map f [a; b] = [b; a]) as M. { cbn [map]. unfold f. rewrite str_eqb_refl. assert (str_eqb b a = false) as -> by (destruct (str_eqb b a) eqn:Q; [apply str_eqb_eq in Q; congruence|reflexivity]). reflexivity. }
  rewrite <- M, BP in W2. destruct (random_shuffle s [a; b]) as [|x r]; [discriminate W1|]. cbn [map firstn] in W1, W2. injection W1 as ->. injection W2 as W2. unfold f in W2.
  destruct (I1 x (or_introl eq_refl)) as [<-|[<-|[]]]; [rewrite str_eqb_refl in W2; exact (AB W2)|]. destruct (str_eqb b a) eqn:Q; [apply str_eqb_eq in Q; exact (AB (eq_sym Q))|exact (AB (eq_sym W2))].
Qed.

Lemma split_run so p fs qin ks val n seed dir : set_like so -> split_setup cwd ZC p fs qin ks val n seed dir ->
  exists fs' parts, split_in so p fs = (fs', None) /\ length parts = n /\
    (exists l, Permutation l ks /\ StronglySorted (fun a b => str_ltb a b = true) l /\
       forall i part, nth_error parts i = Some part -> forall k, In k part <-> in_slice n i (match seed with Some s => seeded_shuffle s l | None => l end) k) /\
    (forall i part, nth_error parts i = Some part -> holds fs' (slice_name i :: dir) part val /\ NoDup part /\ incl part ks).
Proof using seeded_perm cwd_proper x_is_source random_shuffle.
  clear random_perm. intros PO (W & F & (ns & T & Hin) & C & PK & (nv & Sn & In_) & N0 & Mi & Sd & Ho & U & En & Fr).
  destruct (C84_split X import_module other_eval builtin locals_of x_is_class x_from_parameters x_construct x_callable x_call x_is_linear x_is_source cwd other_globals ZC torn so seeded_shuffle random_shuffle other_source oeq PO seeded_perm cwd_proper
    p fs ns qin ks val nv n seed dir W F T Hin C PK Sn In_ N0 Mi Sd Ho U En) as (fs' & parts & E & _ & Lp & Pp & Sl & Ho' & _).
  { intros o [<-|I]; [apply Fr; now left|]. apply Fr. right. apply in_map_iff in I. destruct I as (i & <- & I). apply in_seq in I. exists i. split; [apply I|reflexivity]. }
  exists fs', parts. split; [exact E|]. split; [exact Lp|]. split; [exact Sl|]. intros i part Hp. destruct (Ho' i part Hp) as (H1 & _). split; [exact H1|].
  split; [destruct H1 as (z & _ & (ks' & _ & N & P) & _); exact (Permutation_NoDup P N)|]. intros k Ik. apply (Permutation_in _ Pp). apply in_concat. exists part. split; [exact (nth_error_In _ _ Hp)|exact Ik].
Qed.
(** C126: splitting two stores with the same pairs, listed in whatever order, gives the same slices (with the same seed and number of slices). *)
Theorem C126_split_same : forall so1 so2 p1 p2 fs1 fs2 q1 q2 ks1 ks2 val n seed dir1 dir2, set_like so1 -> set_like so2 ->
  split_setup cwd ZC p1 fs1 q1 ks1 val n seed dir1 -> split_setup cwd ZC p2 fs2 q2 ks2 val n seed dir2 -> Permutation ks1 ks2 ->
  exists fs1' fs2' parts, split_in so1 p1 fs1 = (fs1', None) /\ split_in so2 p2 fs2 = (fs2', None) /\ length parts = n /\
    forall i part, nth_error parts i = Some part -> holds fs1' (slice_name i :: dir1) part val /\ holds fs2' (slice_name i :: dir2) part val.
Proof using seeded_perm cwd_proper x_is_source random_shuffle.
  clear random_perm. intros so1 so2 p1 p2 fs1 fs2 q1 q2 ks1 ks2 val n seed dir1 dir2 P1 P2 S1 S2 PK.
  destruct (split_run so1 p1 fs1 q1 ks1 val n seed dir1 P1 S1) as (fs1' & parts & E1 & L1 & (l1 & Pl1 & So1 & I1) & H1).
  destruct (split_run so2 p2 fs2 q2 ks2 val n seed dir2 P2 S2) as (fs2' & parts2 & E2 & L2 & (l2 & Pl2 & So2 & I2) & H2).
  assert (l1 = l2) as <- by (apply sorted_unique; [exact So1|exact So2|]; now rewrite Pl1, Pl2).
  exists fs1', fs2', parts. split; [exact E1|]. split; [exact E2|]. split; [exact L1|]. intros i part Hp. destruct (H1 i part Hp) as (A & Na & _). split; [exact A|].
  destruct (nth_error parts2 i) as [part2|] eqn:Hp2; [|exfalso; apply nth_error_None in Hp2; assert (nth_error parts i <> None) as Q by congruence; apply nth_error_Some in Q; rewrite L1 in Q; rewrite L2 in Hp2; exact (proj1 (Nat.lt_nge _ _) Q Hp2)].
  destruct (H2 i part2 Hp2) as (B & Nb & _). refine (contains_perm _ part2 part val B _). apply NoDup_Permutation; [exact Nb|exact Na|]. intros k. rewrite (I1 i part Hp k), (I2 i part2 Hp2 k). reflexivity.
Qed.
End Sample.
