(** * Property C131: which files sources leave open *)
From Verif Require Import Prelude PyStr TextLib Utf8 Io OpenFiles.
From Verif Require IoProps.
Local Open Scope nat_scope.

(** ** Lists of objects *)
Lemma upd_length i f l : length (upd i f l) = length l.
Proof. revert i. induction l as [|x l IH]; intros [|i]; cbn; auto. Qed.
Lemma upd_nth i f l j : nth_error (upd i f l) j = if i =? j then option_map f (nth_error l j) else nth_error l j.
Proof. revert i j. induction l as [|x l IH]; intros [|i] [|j]; cbn; auto. now destruct (i =? j). Qed.
Lemma upd_app_l i f l r : i < length l -> upd i f (l ++ r) = upd i f l ++ r.
Proof. revert i. induction l as [|x l IH]; intros [|i] H; cbn in *; [lia|lia|reflexivity|]. f_equal. apply IH. lia. Qed.
Lemma upd_app_r i f l r : upd (length l + i) f (l ++ r) = l ++ upd i f r.
Proof. induction l as [|x l IH]; cbn; [reflexivity|]. now f_equal. Qed.

(** What can happen to an object: it can be closed and read. *)
Definition shut (x y : obj) : Prop :=
  match x, y with
  | OFile p b d _, OFile p' b' d' _ => p = p' /\ d = d' /\ (b' = true -> b = true)
  | OZip p a b, OZip p' a' b' => p = p' /\ a = a' /\ (b' = true -> b = true)
  | OExt z d b _, OExt z' d' b' _ => z = z' /\ d = d' /\ (b' = true -> b = true)
  | OMem s b _, OMem s' b' _ => s = s' /\ (b' = true -> b = true)
  | _, _ => False
  end.
Lemma shut_refl x : shut x x.
Proof. destruct x; cbn; auto. Qed.
Lemma shut_trans x y z : shut x y -> shut y z -> shut x z.
Proof. destruct x, y; try contradiction; destruct z; cbn; try contradiction; intuition congruence. Qed.
Lemma shut_shut x : shut x (shut_obj x).
Proof. destruct x; cbn; intuition discriminate. Qed.
Lemma shut_mark x : shut x (mark x).
Proof. destruct x; cbn; auto. Qed.
(** the file an object keeps open by itself *)
Definition live (x : obj) : list str := match x with OFile p true _ _ => [p] | OZip p _ true => [p] | _ => [] end.
(** not an open member handle *)
Definition settled (x : obj) : Prop := match x with OExt _ _ b _ => b = false | _ => True end.
Lemma shut_live x y : shut x y -> live x = [] -> live y = [].
Proof. destruct x, y; try contradiction; cbn; auto; intros S; destruct op, op0; try reflexivity; try discriminate; intuition discriminate. Qed.
Lemma shut_settled x y : shut x y -> settled x -> settled y.
Proof. destruct x, y; try contradiction; cbn; auto. intros (_ & _ & S) ->. destruct op0; [|reflexivity]. symmetry. now apply S. Qed.
Lemma live_shut x : live (shut_obj x) = [].
Proof. now destruct x. Qed.
Lemma settled_shut x : settled (shut_obj x).
Proof. now destruct x. Qed.

Lemma F2_length (a b : heap) : Forall2 shut a b -> length a = length b.
Proof. induction 1; cbn; auto. Qed.
Lemma Forall2_refl_shut m : Forall2 shut m m.
Proof. induction m; constructor; auto using shut_refl. Qed.
Lemma Forall2_trans_shut a b c : Forall2 shut a b -> Forall2 shut b c -> Forall2 shut a c.
Proof. intros H. revert c. induction H; intros c K; inversion K; subst; constructor; eauto using shut_trans. Qed.
Lemma upd_shut i f m : (forall x, shut x (f x)) -> Forall2 shut m (upd i f m).
Proof. intros F. revert i. induction m as [|x m IH]; intros [|i]; cbn; constructor; auto using shut_refl. apply Forall2_refl_shut. Qed.
Lemma hclose_shut h m : Forall2 shut m (hclose h m).
Proof. revert m. induction h; intros m; cbn; auto; try (apply upd_shut, shut_shut); (eapply Forall2_trans_shut; apply upd_shut, shut_shut). Qed.
Lemma hclose_length h m : length (hclose h m) = length m.
Proof. revert m. induction h; intros m; cbn; rewrite ?upd_length; auto. Qed.
Lemma hclose_other h m i : ~ In i (oids h) -> nth_error (hclose h m) i = nth_error m i.
Proof.
  revert m. induction h; intros m K; cbn in *; auto; rewrite ?upd_nth; repeat (match goal with |- context [?a =? i] => destruct (Nat.eqb_spec a i) end); auto; subst; tauto.
Qed.
Lemma hread_shut h m : Forall2 shut m (fst (hread h m)).
Proof.
  induction h; cbn; try (destruct (nth_error m o) as [[p b d r|p a b|z' d b r|s b r]|]; try destruct b; cbn; auto using Forall2_refl_shut; apply upd_shut, shut_mark).
  destruct (hread h m) as [m' r]. exact IHh.
Qed.
Lemma hread_other h m i : ~ In i (oids h) -> nth_error (fst (hread h m)) i = nth_error m i.
Proof.
  induction h; cbn; intros K; try (destruct (nth_error m o) as [[p b d r|p a b|z' d b r|s b r]|]; try destruct b; cbn; auto; rewrite upd_nth; destruct (Nat.eqb_spec o i); auto; subst; tauto).
  destruct (hread h m) as [m' r]. exact (IHh K).
Qed.

Section P.
Variable w : world.
Variable ZC : zip_codec.
Variable gunzip : bytes -> res bytes.
Variable untar : bytes -> res (list member).
Variable late : bytes -> bool.
Notation run := (run w ZC gunzip untar late).
Notation open_source := (open_source w ZC gunzip untar late).
Notation left_open := (left_open w ZC gunzip untar late).

Variable av : option nat.
(** The variable [av], if any, is not used. *)
Fixpoint avoids (p : prog) : Prop :=
  match p with
  | Done _ => True
  | Read v k => Some v <> av /\ forall r, avoids (k r)
  | Close v k => Some v <> av /\ avoids k
  | CloseZip _ k => avoids k
  | Size _ k | TarEmpty _ _ k => forall r, avoids (k r)
  | With _ body k => (forall v, Some v <> av -> avoids (body v)) /\ forall r, avoids (k r)
  | WithZip _ body k => (forall v, avoids (body v)) /\ forall r, avoids (k r)
  end.
(** object [i] can be reached *)
Definition reach (s : state) (i : nat) : Prop :=
  (exists v h, Some v <> av /\ nth_error (vars s) v = Some h /\ In i (oids h)) \/ In i (zips s).
(** [sound], for the proofs *)
Definition ok (s : state) : Prop := (forall v h i, nth_error (vars s) v = Some h -> In i (oids h) -> i < length (objs s)) /\ (forall i, In i (zips s) -> i < length (objs s)) /\
  (forall v, av = Some v -> v < length (vars s)).
(** From [s], with the events [tr], to [s']. *)
Definition goes (s s' : state) (tr : list event) : Prop :=
  exists old new, objs s' = old ++ new /\ Forall2 shut (objs s) old /\
    (forall i, i < length (objs s) -> ~ reach s i -> nth_error old i = nth_error (objs s) i) /\
    Forall settled new /\ flat_map live new = flat_map left_open tr /\
    (forall i x, nth_error new i = Some x -> live x <> [] -> ~ reach s' (length old + i)) /\
    (forall i, i < length (objs s) -> reach s' i -> reach s i) /\ ok s' /\ (exists vs, vars s' = vars s ++ vs).
Lemma goes_refl s : ok s -> goes s s [].
Proof using.
  intros OK. exists (objs s), []. rewrite app_nil_r. split; [reflexivity|]. split; [apply Forall2_refl_shut|]. split; [reflexivity|]. split; [constructor|]. split; [reflexivity|].
  split; [intros [|i] x K; discriminate K|]. split; [auto|]. split; [exact OK|]. exists []. now rewrite app_nil_r.
Qed.
Lemma F2_nth (l l' : heap) i y : Forall2 shut l l' -> nth_error l' i = Some y -> exists x, nth_error l i = Some x /\ shut x y.
Proof using. intros H. revert i. induction H; intros [|i] E; cbn in *; try discriminate; eauto. injection E as <-. eauto. Qed.
Lemma goes_trans s1 s2 s3 t1 t2 : goes s1 s2 t1 -> goes s2 s3 t2 -> goes s1 s3 (t1 ++ t2).
Proof using.
  intros (o1 & n1 & E1 & F1 & U1 & S1 & L1 & R1 & B1 & K1 & (vs1 & V1)) (o2 & n2 & E2 & F2 & U2 & S2 & L2 & R2 & B2 & K2 & (vs2 & V2)).
  rewrite E1 in F2. apply Forall2_app_inv_l in F2. destruct F2 as (o2a & o2b & F2a & F2b & ->).
  assert (La : length (objs s1) = length o1) by (eapply F2_length; eauto). assert (Lb : length o1 = length o2a) by (eapply F2_length; eauto). assert (Lc : length n1 = length o2b) by (eapply F2_length; eauto).
  exists o2a, (o2b ++ n2). split; [rewrite E2, app_assoc; reflexivity|]. split; [eapply Forall2_trans_shut; eauto|].
  split; [|split; [|split; [|split; [|split; [|split]]]]].
  - intros i Hi NR. assert (NR2 : ~ reach s2 i) by (intros K; apply NR, B1; assumption). pose proof (U2 i) as X. rewrite E1, app_length in X. specialize (X ltac:(lia) NR2).
    rewrite !nth_error_app1 in X by lia. rewrite X. apply U1; assumption.
  - apply Forall_app. split; [|assumption]. clear -F2b S1. induction F2b; [constructor|]. inversion S1; subst. constructor; eauto using shut_settled.
  - rewrite !flat_map_app. f_equal; [|exact L2]. rewrite <- L1.
    assert (Q : forall i, nth_error n1 i = nth_error o2b i \/ (exists x y, nth_error n1 i = Some x /\ nth_error o2b i = Some y /\ live x = [] /\ live y = [])).
    { intros i. destruct (nth_error n1 i) as [x|] eqn:Ex.
      - destruct (live x) as [|p l] eqn:Lx.
        + right. destruct (nth_error o2b i) as [y|] eqn:Ey; [|apply nth_error_None in Ey; assert (i < length n1) by (apply nth_error_Some; congruence); lia].
          destruct (F2_nth _ _ _ _ F2b Ey) as (x' & Ex' & SH). rewrite Ex in Ex'. injection Ex' as <-. exists x, y. repeat split; auto. eapply shut_live; eauto.
        + left. assert (Hi : i < length n1) by (apply nth_error_Some; congruence). pose proof (U2 (length o1 + i)) as X. rewrite E1, app_length in X.
          specialize (X ltac:(lia)). rewrite nth_error_app2, (nth_error_app2 o1) in X by lia. replace (length o1 + i - length o2a) with i in X by lia. replace (length o1 + i - length o1) with i in X by lia. rewrite <- Ex. symmetry. apply X.
          apply (R1 i x Ex). congruence.
      - left. apply nth_error_None in Ex. symmetry. apply nth_error_None. lia. }
    clear -Q Lc. revert o2b Lc Q. induction n1 as [|x n1 IH]; intros [|y o2b] Lc Q; try discriminate Lc; [reflexivity|]. cbn. f_equal.
    + destruct (Q 0) as [K|(x' & y' & K1 & K2 & K3 & K4)]; cbn in *; [now injection K as ->|]. injection K1 as <-. injection K2 as <-. congruence.
    + apply IH; [now injection Lc|]. intros i. exact (Q (S i)).
  - intros i x Ex Lx. destruct (Nat.ltb_spec i (length o2b)) as [Hi|Hi].
    + rewrite nth_error_app1 in Ex by lia. destruct (F2_nth _ _ _ _ F2b Ex) as (x' & Ex' & SH).
      intros K. apply B2 in K; [|rewrite E1, app_length; lia]. revert K. rewrite <- Lb. apply (R1 i x' Ex'). intros N. apply Lx. eapply shut_live; eauto.
    + rewrite nth_error_app2 in Ex by lia. replace (length o2a + i) with (length (o2a ++ o2b) + (i - length o2b)) by (rewrite app_length; lia). apply (R2 _ _ Ex Lx).
  - intros i Hi K. apply B1; [assumption|]. apply B2; [rewrite E1, app_length; lia|assumption].
  - exact K2.
  - exists (vs1 ++ vs2). rewrite V2, V1, app_assoc. reflexivity.
Qed.
(** Changing reachable objects only. *)
Lemma goes_upd s m : ok s -> length m = length (objs s) -> Forall2 shut (objs s) m -> (forall i, ~ reach s i -> nth_error m i = nth_error (objs s) i) ->
  goes s {| objs := m; vars := vars s; zips := zips s |} [].
Proof using.
  intros (O1 & O2 & O3) L F U. exists m, []. cbn [objs]. rewrite app_nil_r. split; [reflexivity|]. split; [exact F|]. split; [intros i _ NR; exact (U i NR)|]. split; [constructor|]. split; [reflexivity|].
  split; [intros [|i] x K; discriminate K|]. split; [intros i _ K; exact K|]. split; [split; [|split]|].
  - intros v h i K J. cbn in *. rewrite L. exact (O1 v h i K J).
  - intros i J. cbn in *. rewrite L. exact (O2 i J).
  - exact O3.
  - exists []. cbn. now rewrite app_nil_r.
Qed.
(** Adding objects nobody can reach. *)
Lemma goes_add s l t : ok s -> Forall settled l -> flat_map live l = flat_map left_open t -> goes s {| objs := objs s ++ l; vars := vars s; zips := zips s |} t.
Proof using.
  intros (O1 & O2 & O3) ST E. exists (objs s), l. cbn [objs]. split; [reflexivity|]. split; [apply Forall2_refl_shut|]. split; [reflexivity|]. split; [assumption|]. split; [assumption|].
  assert (Q : forall i, reach {| objs := objs s ++ l; vars := vars s; zips := zips s |} i -> i < length (objs s)).
  { intros i [(v & h & _ & K & J)|J]; cbn in *; eauto. }
  split; [intros i x _ _ K; apply Q in K; lia|]. split; [intros i _ K; exact K|]. split; [split; [|split]|].
  - intros v h i K J. cbn in *. rewrite app_length. specialize (O1 v h i K J). lia.
  - intros i J. cbn in *. rewrite app_length. specialize (O2 i J). lia.
  - exact O3.
  - exists []. cbn. now rewrite app_nil_r.
Qed.
Lemma goes_events s s' t t' : flat_map left_open t = flat_map left_open t' -> goes s s' t -> goes s s' t'.
Proof using. intros E (o & n & H). exists o, n. rewrite <- E. exact H. Qed.

(** new variables stand for new objects *)
Definition opened_ok (s : state) (l : heap) (vs : list handle) (zs : list nat) : Prop :=
  (forall h i, In h vs -> In i (oids h) -> length (objs s) <= i < length (objs s ++ l)) /\ (forall i, In i zs -> length (objs s) <= i < length (objs s ++ l)).
(** closing all new objects *)
Definition closes (k : nat) (l : heap) (cl : heap -> heap) : Prop :=
  forall oa ob nw, length oa = k -> Forall2 shut l ob -> exists ob', cl (oa ++ ob ++ nw) = oa ++ ob' ++ nw /\ length ob' = length ob /\ Forall settled ob' /\ flat_map live ob' = [].
Lemma ok_opened s l vs zs : ok s -> opened_ok s l vs zs -> ok {| objs := objs s ++ l; vars := vars s ++ vs; zips := zips s ++ zs |}.
Proof using.
  intros (O1 & O2 & O3) (A1 & A2). split; [|split]; cbn.
  - intros v h i K J. apply nth_error_In in K as KI. apply in_app_or in KI. destruct (Nat.ltb_spec v (length (vars s))) as [Q|Q].
    + rewrite nth_error_app1 in K by lia. rewrite app_length. specialize (O1 _ _ _ K J). lia.
    + rewrite nth_error_app2 in K by lia. apply nth_error_In in K. exact (proj2 (A1 _ _ K J)).
  - intros i J. apply in_app_or in J. destruct J as [J|J]; [rewrite app_length; specialize (O2 _ J); lia|exact (proj2 (A2 _ J))].
  - intros v E. rewrite app_length. specialize (O3 _ E). lia.
Qed.
Lemma goes_block s l vs zs cl s1 t : ok s -> opened_ok s l vs zs -> closes (length (objs s)) l cl ->
  goes {| objs := objs s ++ l; vars := vars s ++ vs; zips := zips s ++ zs |} s1 t ->
  goes s {| objs := cl (objs s1); vars := vars s1; zips := zips s1 |} t.
Proof using.
  intros OK AO CL (o & n & E & F & U & ST & LV & R & B & OK1 & (vs1 & V1)). cbn [objs vars zips] in *.
  apply Forall2_app_inv_l in F. destruct F as (oa & ob & Fa & Fb & ->). pose proof (F2_length _ _ Fa) as La. pose proof (F2_length _ _ Fb) as Lb.
  destruct (CL oa ob n (eq_sym La) Fb) as (ob' & E' & L' & S' & N'). exists oa, (ob' ++ n). cbn [objs vars zips].
  assert (Q : forall i, i < length (objs s) -> reach {| objs := objs s ++ l; vars := vars s ++ vs; zips := zips s ++ zs |} i -> reach s i).
  { intros i Hi [(v & h & NA & K & J)|J]; cbn in *.
    - left. exists v, h. split; [exact NA|]. split; [|exact J]. destruct (Nat.ltb_spec v (length (vars s))) as [Q|Q]; [now rewrite nth_error_app1 in K by lia|].
      rewrite nth_error_app2 in K by lia. apply nth_error_In in K. pose proof (proj1 AO _ _ K J). lia.
    - right. apply in_app_or in J. destruct J as [J|J]; [exact J|]. pose proof (proj2 AO _ J). lia. }
  split; [rewrite E, <- app_assoc; exact E'|]. split; [exact Fa|]. split; [|split; [|split; [|split; [|split; [|split]]]]].
  - intros i Hi NR. pose proof (U i) as X. rewrite app_length in X. specialize (X ltac:(lia) (fun K => NR (Q i Hi K))). rewrite !nth_error_app1 in X by lia. exact X.
  - apply Forall_app. split; assumption.
  - rewrite flat_map_app, N'. exact LV.
  - intros i x Ex Lx. destruct (Nat.ltb_spec i (length ob')) as [Hi|Hi].
    + exfalso. rewrite nth_error_app1 in Ex by lia. apply Lx. apply nth_error_In in Ex. clear -Ex N'. induction ob' as [|y r IH]; [destruct Ex|]. cbn in N'. apply app_eq_nil in N'. destruct N' as [N1 N2]. destruct Ex as [<-|Ex]; auto.
    + rewrite nth_error_app2 in Ex by lia. replace (length oa + i) with (length (oa ++ ob) + (i - length ob')) by (rewrite app_length; lia). exact (R _ _ Ex Lx).
  - intros i Hi K. apply (Q i Hi). apply (B i); [rewrite app_length; lia|exact K].
  - destruct OK1 as (A1 & A2 & A3). rewrite E, <- app_assoc in A1, A2. assert (LE : length (cl (objs s1)) = length (oa ++ ob ++ n)) by (rewrite E, <- app_assoc, E', !app_length; lia).
    split; [|split]; cbn [objs vars zips]; rewrite ?LE; assumption.
  - exists (vs ++ vs1). rewrite V1, app_assoc. reflexivity.
Qed.
(** Opening a source. *)
Lemma open_spec uz m s : exists l, fst (open_source uz m s) = m ++ l /\
  match snd (open_source uz m s) with
  | Raise _ => Forall settled l /\ flat_map live l = left_by_open w ZC gunzip untar late s
  | Ok h => left_by_open w ZC gunzip untar late s = [] /\ (forall i, In i (oids h) -> length m <= i < length (m ++ l)) /\ closes (length m) l (hclose h)
  end.
Proof using.
  assert (C1 : forall k x, closes k [x] (upd k shut_obj)).
  { intros k x oa ob nw L F. inversion F as [|? y ? ? _ F']; subst. inversion F'; subst. exists [shut_obj y]. split; [rewrite <- (Nat.add_0_r (length oa)), upd_app_r; reflexivity|]. split; [reflexivity|].
    split; [constructor; [apply settled_shut|constructor]|]. cbn. now rewrite live_shut. }
  assert (C2 : forall k x y, closes k [x; y] (fun m => upd k shut_obj (upd (S k) shut_obj m))).
  { intros k x y oa ob nw L F. inversion F as [|? x' ? ? _ F']; subst. inversion F' as [|? y' ? ? _ F2]; subst. inversion F2; subst. exists [shut_obj x'; shut_obj y'].
    split; [replace (S (length oa)) with (length oa + 1) by lia; rewrite upd_app_r; rewrite <- (Nat.add_0_r (length oa)) at 1; rewrite upd_app_r; reflexivity|]. split; [reflexivity|].
    split; [repeat constructor; apply settled_shut|]. cbn. now rewrite !live_shut. }
  assert (IL : forall (x : obj), length m <= length m < length (m ++ [x])) by (intros x; rewrite app_length; cbn; lia).
  assert (IL2 : forall (x y : obj) i, S (length m) = i \/ length m = i \/ False -> length m <= i < length (m ++ [x; y])) by (intros x y i; rewrite app_length; cbn; lia).
  induction s as [p|p n|v n|t|p|b IH dec|p|p dec|p n dec]; cbn [OpenFiles.open_source left_by_open].
  - destruct (w p) as [b|]; cbn [fst snd]; [eexists; split; [reflexivity|]; split; [reflexivity|]; split; [intros i [<-|[]]; apply IL|apply C1]|exists []; rewrite app_nil_r; repeat split; constructor].
  - destruct (read_file w p) as [c|e]; cbn [bind fst snd]; [|exists []; rewrite app_nil_r; repeat split; constructor].
    destruct (unzip ZC c) as [a|e]; cbn [fst snd]; [|exists []; rewrite app_nil_r; repeat split; constructor].
    destruct (zread a n) as [d|]; cbn [fst snd]; eexists; (split; [reflexivity|]).
    + split; [reflexivity|]. split; [intros i J; exact (IL2 _ _ i J)|apply C2].
    + split; [repeat constructor|reflexivity].
  - destruct (nth_error uz v) as [z|]; [|exists []; rewrite app_nil_r; repeat split; constructor].
    destruct (nth_error m z) as [[? ? ? ?|? a op|? ? ? ?|? ? ?]|]; try (exists []; rewrite app_nil_r; repeat split; constructor). destruct op; [|exists []; rewrite app_nil_r; repeat split; constructor].
    destruct (zread a n) as [d|]; cbn [fst snd]; [|exists []; rewrite app_nil_r; repeat split; constructor].
    eexists; split; [reflexivity|]; split; [reflexivity|]; split; [intros i [<-|[]]; apply IL|apply C1].
  - eexists; split; [reflexivity|]; split; [reflexivity|]; split; [intros i [<-|[]]; apply IL|apply C1].
  - destruct (w p) as [b|]; cbn [fst snd]; [eexists; split; [reflexivity|]; split; [reflexivity|]; split; [intros i [<-|[]]; apply IL|apply C1]|exists []; rewrite app_nil_r; repeat split; constructor].
  - destruct IH as (l & E & H). destruct (OpenFiles.open_source _ _ _ _ _ _ _ b) as [m' [h|e]]; cbn [fst snd bind] in *; exists l; (split; [exact E|exact H]).
  - destruct (w p) as [b|]; cbn [fst snd]; [eexists; split; [reflexivity|]; split; [reflexivity|]; split; [intros i [<-|[]]; apply IL|apply C1]|exists []; rewrite app_nil_r; repeat split; constructor].
  - destruct (w p) as [b|]; cbn [fst snd]; [eexists; split; [reflexivity|]; split; [reflexivity|]; split; [intros i [<-|[]]; apply IL|apply C1]|exists []; rewrite app_nil_r; repeat split; constructor].
  - destruct (tar_members w gunzip untar late p) as [ms|e]; cbn [fst snd]; [|exists []; rewrite app_nil_r; repeat split; constructor].
    destruct (member_text ms n dec) as [t|e]; cbn [fst snd]; eexists; (split; [reflexivity|]).
    + split; [reflexivity|]. split; [intros i J; exact (IL2 _ _ i J)|apply C2].
    + split; [repeat constructor|reflexivity].
Qed.
Lemma run_goes p : avoids p -> forall s, ok s -> goes s (fst (fst (run p s))) (snd (run p s)).
Proof using.
  induction p as [r|v k IH|v k IH|v k IH|p k IH|p n k IH|src body IHb k IH|p body IHb k IH]; intros AV s OK; cbn [OpenFiles.run avoids] in *.
  - apply goes_refl, OK.
  - destruct AV as [NA AV]. destruct (nth_error (vars s) v) as [h|] eqn:E; [|exact (IH _ (AV _) s OK)].
    pose proof (hread_shut h (objs s)) as SH. pose proof (hread_other h (objs s)) as OT. destruct (hread h (objs s)) as [m r]; cbn [fst snd] in *.
    assert (G : goes s {| objs := m; vars := vars s; zips := zips s |} []).
    { apply goes_upd; [exact OK|symmetry; exact (F2_length _ _ SH)|exact SH|]. intros i NR. apply OT. intros J. apply NR. left. exists v, h. auto. }
    refine (goes_trans _ _ _ [] _ G (IH r (AV r) _ _)). destruct G as (? & ? & _ & _ & _ & _ & _ & _ & _ & K & _). exact K.
  - destruct AV as [NA AV]. destruct (nth_error (vars s) v) as [h|] eqn:E; [|exact (IH AV s OK)].
    assert (G : goes s {| objs := hclose h (objs s); vars := vars s; zips := zips s |} []).
    { apply goes_upd; [exact OK|apply hclose_length|apply hclose_shut|]. intros i NR. apply hclose_other. intros J. apply NR. left. exists v, h. auto. }
    refine (goes_trans _ _ _ [] _ G (IH AV _ _)). destruct G as (? & ? & _ & _ & _ & _ & _ & _ & _ & K & _). exact K.
  - destruct (nth_error (zips s) v) as [z|] eqn:E; [|exact (IH AV s OK)].
    assert (G : goes s {| objs := upd z shut_obj (objs s); vars := vars s; zips := zips s |} []).
    { apply goes_upd; [exact OK|apply upd_length|apply upd_shut, shut_shut|]. intros i NR. rewrite upd_nth. destruct (Nat.eqb_spec z i) as [->|_]; [|reflexivity]. exfalso. apply NR. right. exact (nth_error_In _ _ E). }
    refine (goes_trans _ _ _ [] _ G (IH AV _ _)). destruct G as (? & ? & _ & _ & _ & _ & _ & _ & _ & K & _). exact K.
  - exact (IH _ (AV _) s OK).
  - destruct (tar_empty w gunzip untar late p n (objs s)) as [m r] eqn:T.
    assert (G : goes s {| objs := m; vars := vars s; zips := zips s |} [ETarEmpty p]).
    { unfold tar_empty in T. destruct (tar_members w gunzip untar late p) as [ms|e] eqn:M; injection T as <- _.
      - apply goes_add; [exact OK|repeat constructor|]. cbn. rewrite M. reflexivity.
      - rewrite <- (app_nil_r (objs s)) at 1. apply goes_add; [exact OK|constructor|]. cbn. rewrite M. reflexivity. }
    specialize (IH r (AV r) {| objs := m; vars := vars s; zips := zips s |}). destruct (run (k r) _) as [[s' r'] tr]. cbn [fst snd] in *.
    refine (goes_trans _ _ _ [_] _ G (IH _)). destruct G as (? & ? & _ & _ & _ & _ & _ & _ & _ & K & _). exact K.
  - destruct AV as [AB AV]. destruct (open_spec (zips s) (objs s) src) as (l & E & H). destruct (open_source (zips s) (objs s) src) as [m r]. cbn [fst snd] in *. subst m. destruct r as [h|e].
    + destruct H as (N & RG & CL). assert (NA : Some (length (vars s)) <> av).
      { intros K. destruct OK as (_ & _ & O3). specialize (O3 _ (eq_sym K)). lia. }
      assert (AO : opened_ok s l [h] []) by (split; [intros h' i [<-|[]] J; exact (RG i J)|intros i []]).
      specialize (IHb (length (vars s)) (AB _ NA) {| objs := objs s ++ l; vars := vars s ++ [h]; zips := zips s |}).
      pose proof (ok_opened s l [h] [] OK AO) as OK1. rewrite app_nil_r in OK1. specialize (IHb OK1).
      destruct (run (body (length (vars s))) _) as [[s1 r1] t1]. cbn [fst snd] in IHb.
      pose proof (goes_block s l [h] [] (hclose h) s1 t1 OK AO CL) as G. rewrite app_nil_r in G. specialize (G IHb).
      specialize (IH r1 (AV r1) {| objs := hclose h (objs s1); vars := vars s1; zips := zips s1 |}). destruct (run (k r1) _) as [[s2 r2] t2]. cbn [fst snd] in *.
      apply (goes_events _ _ (t1 ++ t2)); [cbn; rewrite N; reflexivity|]. refine (goes_trans _ _ _ _ _ G (IH _)). destruct G as (? & ? & _ & _ & _ & _ & _ & _ & _ & K & _). exact K.
    + destruct H as (ST & LV). assert (G : goes s {| objs := objs s ++ l; vars := vars s; zips := zips s |} [EOpen src]) by (apply goes_add; [exact OK|exact ST|cbn; rewrite app_nil_r; exact LV]).
      specialize (IH (Raise e) (AV _) {| objs := objs s ++ l; vars := vars s; zips := zips s |}). destruct (run (k (Raise e)) _) as [[s' r'] tr]. cbn [fst snd] in *.
      refine (goes_trans _ _ _ [_] _ G (IH _)). destruct G as (? & ? & _ & _ & _ & _ & _ & _ & _ & K & _). exact K.
  - destruct AV as [AB AV]. destruct (let* c := read_file w p in unzip ZC c) as [a|e]; [|exact (IH _ (AV _) s OK)].
    assert (AO : opened_ok s [OZip p a true] [] [length (objs s)]) by (split; [intros h i []|intros i [<-|[]]; rewrite app_length; cbn; lia]).
    pose proof (ok_opened s _ [] _ OK AO) as OK1. rewrite app_nil_r in OK1. specialize (IHb (length (zips s)) (AB _) _ OK1). cbv zeta. destruct (run (body (length (zips s))) _) as [[s1 r1] t1]. cbn [fst snd] in IHb.
    pose proof (goes_block s [OZip p a true] [] [length (objs s)] (upd (length (objs s)) shut_obj) s1 t1 OK AO) as G. rewrite app_nil_r in G.
    assert (CL : closes (length (objs s)) [OZip p a true] (upd (length (objs s)) shut_obj)).
    { intros oa ob nw L F. inversion F as [|? y ? ? _ F']; subst. inversion F'; subst. exists [shut_obj y]. split; [rewrite <- L, <- (Nat.add_0_r (length oa)), upd_app_r; reflexivity|]. split; [reflexivity|].
      split; [constructor; [apply settled_shut|constructor]|]. cbn. now rewrite live_shut. }
    specialize (G CL IHb). specialize (IH r1 (AV r1) {| objs := upd (length (objs s)) shut_obj (objs s1); vars := vars s1; zips := zips s1 |}). destruct (run (k r1) _) as [[s2 r2] t2]. cbn [fst snd] in *.
    refine (goes_trans _ _ _ _ _ G (IH _)). destruct G as (? & ? & _ & _ & _ & _ & _ & _ & _ & K & _). exact K.
Qed.
End P.

Lemma settled_files m : Forall settled m -> forall rest i, (forall j, nth_error rest j = nth_error m (i + j)) -> files_from m i rest (flat_map live rest).
Proof.
  intros ST. assert (NE : forall j z d r, nth_error m j <> Some (OExt z d true r)).
  { intros j z d r E. apply nth_error_In in E. rewrite Forall_forall in ST. specialize (ST _ E). discriminate ST. }
  induction rest as [|x rest IH]; intros i E; cbn; [reflexivity|].
  pose proof (E 0) as E0. rewrite Nat.add_0_r in E0. cbn in E0. assert (IHs : files_from m (S i) rest (flat_map live rest)). { apply IH. intros j. rewrite (f_equal (nth_error m) (Nat.add_succ_comm i j)). exact (E (S j)). }
  destruct x as [p b d r|p a b|z d b r|s b r]; try destruct b; cbn [live app];
    try (left; exists p, (flat_map live rest); split; [reflexivity|]; split; [|exact IHs]; unfold uses_file; rewrite <- E0; auto; fail);
    (right; split; [|exact IHs]; intros q; unfold uses_file; rewrite <- E0; try tauto).
  - intros [_ K]; discriminate K.
  - intros [_ [K|(j & d & r & K)]]; [discriminate K|]. exact (NE _ _ _ _ K).
Qed.
Lemma files_unique m : forall rest i l l', files_from m i rest l -> files_from m i rest l' -> l = l'.
Proof.
  induction rest as [|x rest IH]; cbn; intros i l l' A B; [congruence|].
  destruct A as [(p & la & -> & U & A)|[N A]], B as [(p' & lb & -> & U' & B)|[N' B]].
  - f_equal; [|exact (IH _ _ _ A B)]. unfold uses_file in U, U'. destruct (nth_error m i) as [[]|]; try contradiction; destruct U, U'; congruence.
  - now destruct (N' p).
  - now destruct (N p').
  - exact (IH _ _ _ A B).
Qed.

Section T.
Variable w : world.
Variable ZC : zip_codec.
Variable gunzip : bytes -> res bytes.
Variable untar : bytes -> res (list member).
Variable late : bytes -> bool.
Notation run := (run w ZC gunzip untar late).
Notation open_source := (open_source w ZC gunzip untar late).
Notation left_open := (left_open w ZC gunzip untar late).
Notation tar_members := (tar_members w gunzip untar late).

Lemma avoids_none p : avoids None p.
Proof using. induction p; cbn; auto; repeat split; auto; discriminate. Qed.
Lemma avoids_some v p : leaves_alone v p -> avoids (Some v) p.
Proof using.
  induction p; cbn; auto.
  - intros [N K]. split; [congruence|auto].
  - intros [N K]. split; [congruence|auto].
  - intros [A B]. split; [intros v' N; apply H, A; congruence|auto].
  - intros [A B]. split; auto.
Qed.
Lemma ok_none s : sound s -> ok None s.
Proof using. intros (A & B). split; [exact A|]. split; [exact B|discriminate]. Qed.
Lemma ok_sound av s : ok av s -> sound s.
Proof using. intros (A & B & _). split; assumption. Qed.

(** C131: the files that are open after a program that reads sources, using "with" for each of them, are exactly those
    left by open() calls of archives that failed after opening the archive, and by is_empty() of files in
    tar files - whatever exceptions were raised in the blocks, however the blocks are nested, and whether handles and ZipFile objects are also
    closed before the end of their blocks. *)
Theorem C131_left_open : forall p s r tr, run p start = (s, r, tr) ->
  open_files (objs s) (flat_map left_open tr) /\ (forall l, open_files (objs s) l -> l = flat_map left_open tr).
Proof using.
  intros p s r tr E. assert (O : ok None start) by (split; [intros [|v] h i K; discriminate K|split; [intros i []|discriminate]]).
  pose proof (run_goes w ZC gunzip untar late None p (avoids_none p) start O) as G. rewrite E in G. cbn [fst snd] in G.
  destruct G as (o & n & EO & F & _ & ST & LV & _). inversion F; subst o. cbn in EO. subst n.
  assert (OF : open_files (objs s) (flat_map left_open tr)) by (unfold open_files; rewrite <- LV; apply (settled_files _ ST); reflexivity).
  split; [exact OF|]. intros l K. exact (files_unique _ _ _ _ _ K OF).
Qed.
(** C131: so nothing is left open if every archive has the member asked for, it can be decoded, and is_empty is not used for files in tar
    files. *)
Theorem C131_nothing_left : forall p s r tr, run p start = (s, r, tr) ->
  (forall e, In e tr -> left_open e = []) -> forall i q, ~ uses_file (objs s) i q.
Proof using.
  intros p s r tr E N. destruct (C131_left_open p s r tr E) as [OF _].
  assert (L : flat_map left_open tr = []). { clear -N. induction tr as [|e tr IH]; [reflexivity|]. cbn. rewrite (N e (or_introl eq_refl)). apply IH. intros e' J. apply N. now right. }
  rewrite L in OF. unfold open_files in OF. intros i q U.
  assert (K : forall m rest j, files_from m j rest [] -> forall k x, k < length rest -> ~ uses_file m (j + k) x).
  { clear. induction rest as [|x rest IH]; cbn; intros j F k y Hk; [lia|]. destruct F as [(p & l' & D & _)|[NU F]]; [discriminate D|]. destruct k as [|k]; [rewrite Nat.add_0_r; apply NU|]. rewrite <- Nat.add_succ_comm. apply (IH (S j) F k). lia. }
  refine (K _ _ 0 OF i q _ U). unfold uses_file in U. apply nth_error_Some. destruct (nth_error (objs s) i); [discriminate|destruct U].
Qed.
Lemma last_nth {A} (l : list A) x : nth_error (l ++ [x]) (length l) = Some x.
Proof using. rewrite nth_error_app2, Nat.sub_diag by auto. reflexivity. Qed.
Lemma last2_nth {A} (l : list A) x y : nth_error (l ++ [x; y]) (S (length l)) = Some y.
Proof using. rewrite nth_error_app2 by auto. replace (S (length l) - length l) with 1 by lia. reflexivity. Qed.
(** Reading a source at once. *)
Definition at_once (uz : list nat) (m : heap) (src : source) : res V :=
  let '(m', r) := open_source uz m src in let* h := r in snd (hread h m').
Lemma with_read src (f : res V -> res V) s : snd (fst (run (With src (fun v => Read v (fun r => Done (f r))) Done) s)) =
  match snd (open_source (zips s) (objs s) src) with Ok _ => f (at_once (zips s) (objs s) src) | Raise e => Raise e end.
Proof using.
  unfold at_once. cbn [OpenFiles.run]. destruct (open_source (zips s) (objs s) src) as [m [h|e]]; cbn [fst snd bind]; [|reflexivity]. cbn [vars objs zips].
  rewrite last_nth. destruct (hread h m) as [m' r]. reflexivity.
Qed.
Lemma at_once_text c src uz m : source_of c = Some src -> at_once uz m src = let* t := text ZC gunzip untar w c in Ok (VText t).
Proof using.
  unfold at_once. destruct c as [s|p|[p|p n|a n] dec|p dec|p n dec]; cbn [source_of]; intros E; try discriminate E; injection E as <-; cbn [OpenFiles.open_source text byte_content]; unfold read_file.
  - cbn. rewrite last_nth. reflexivity.
  - destruct (w p) as [b|]; cbn; [|reflexivity]. rewrite last_nth. cbn. now destruct (decode b).
  - destruct (w p) as [b|]; cbn; [|reflexivity]. rewrite last_nth. cbn. now destruct (dec b).
  - destruct (w p) as [b|]; cbn; [|reflexivity]. destruct (unzip ZC b) as [a|e]; cbn; [|reflexivity]. destruct (zread a n) as [d|]; cbn [opt_or_raise bind]; [|reflexivity]. cbn [hread]. rewrite last2_nth. cbn. now destruct (dec d).
  - destruct (w p) as [b|]; cbn; [|reflexivity]. rewrite last_nth. cbn. destruct (gunzip b) as [u|e]; cbn; [|reflexivity]. now destruct (dec u).
  - unfold OpenFiles.tar_members, read_file. destruct (w p) as [b|]; cbn [bind]; [|reflexivity]. destruct (gunzip b) as [u|e]; cbn [bind]; [|reflexivity].
    destruct (untar u) as [ms|e]; cbn [bind].
    + unfold member_text. cbn [bind]. destruct (find _ (rev ms)) as [x|]; [|reflexivity]. destruct (m_isfile x); [|reflexivity]. destruct (m_data x) as [d|]; [|reflexivity]. destruct (dec d) as [t|e]; [|reflexivity]. cbn [bind hread]. rewrite last2_nth. reflexivity.
    + destruct (late u); reflexivity.
Qed.
Lemma open_raise uz m src e : snd (open_source uz m src) = Raise e -> at_once uz m src = Raise e.
Proof using. unfold at_once. destruct (open_source uz m src) as [m' r]. cbn. intros ->. reflexivity. Qed.
(** C131: through these objects, read_all, readlines and is_empty give what the sources contain (Io.v), at any
    point of any program. *)
Theorem C131_contents : forall c src s, source_of c = Some src ->
  snd (fst (run (p_read_all src) s)) = (let* t := read_all ZC gunzip untar w c in Ok (VText t)) /\
  snd (fst (run (p_readlines src) s)) = (let* l := readlines ZC gunzip untar w c in Ok (VLines l)) /\
  snd (fst (run (p_is_empty src) s)) = (let* b := is_empty ZC gunzip untar w c in Ok (VBool b)).
Proof using.
  intros c src s E. pose proof (at_once_text c src (zips s) (objs s) E) as AO. split; [|split].
  - unfold p_read_all. pose proof (with_read src (fun r => r) s) as X. cbv beta in X. etransitivity; [exact X|]. clear X. rewrite AO. unfold read_all. destruct (snd (open_source (zips s) (objs s) src)) as [h|e] eqn:OS; [reflexivity|]. apply open_raise in OS. congruence.
  - unfold p_readlines. etransitivity; [exact (with_read src _ s)|]. rewrite AO. unfold readlines. destruct (snd (open_source (zips s) (objs s) src)) as [h|e] eqn:OS.
    + destruct (text ZC gunzip untar w c); reflexivity.
    + apply open_raise in OS. rewrite AO in OS. destruct (text ZC gunzip untar w c); [discriminate OS|]. cbn in *. congruence.
  - assert (G : forall c', source_of c' = Some src -> snd (fst (run (With src (fun v => Read v (fun r => Done (let* t := r in match t with VText t => Ok (VBool (is_nil (firstn 1 t))) | _ => Raise TypeError end))) Done) s)) = (let* t := text ZC gunzip untar w c' in Ok (VBool (is_nil (firstn 1 t))))).
    { intros c' E'. etransitivity; [exact (with_read src _ s)|]. rewrite (at_once_text c' src (zips s) (objs s) E'). destruct (snd (open_source (zips s) (objs s) src)) as [h|e] eqn:OS.
      + destruct (text ZC gunzip untar w c'); reflexivity.
      + apply open_raise in OS. rewrite (at_once_text c' src (zips s) (objs s) E') in OS. destruct (text ZC gunzip untar w c'); [discriminate OS|]. cbn in *. congruence. }
    destruct c as [t|p|[p|p n|a n] dec|p dec|p n dec]; cbn [source_of] in E; try discriminate E; injection E as <-; cbn [p_is_empty is_empty].
    + reflexivity.
    + cbn. destruct (read_file w p); reflexivity.
    + etransitivity; [exact (G (CBytes (BFile p) dec) eq_refl)|]. destruct (text ZC gunzip untar w _); reflexivity.
    + etransitivity; [exact (G (CBytes (BZip p n) dec) eq_refl)|]. destruct (text ZC gunzip untar w _); reflexivity.
    + etransitivity; [exact (with_read (SGzipRaw p) _ s)|]. unfold at_once, read_file. cbn [OpenFiles.open_source]. destruct (w p) as [b|]; cbn [fst snd bind]; [|reflexivity]. cbn [hread]. rewrite last_nth. cbn [fst snd]. destruct (gunzip b); reflexivity.
    + cbn [OpenFiles.run]. unfold tar_empty, OpenFiles.tar_members, read_file. destruct (w p) as [b|]; cbn [bind]; [|reflexivity]. destruct (gunzip b) as [u|e]; cbn [bind]; [|reflexivity].
      destruct (untar u) as [ms|e]; cbn [bind]; [destruct (find _ (rev ms)) as [x|]; reflexivity|]. destruct (late u); reflexivity.
Qed.
(** C131: the same for read(size) of byte sources. *)
Theorem C131_bytes : forall s p n size,
  snd (fst (run (p_read (SFile p) size) s)) = (let* b := byte_read ZC w (BFile p) size in Ok (VBytes b)) /\
  snd (fst (run (p_read (SZip p n) size) s)) = (let* b := byte_read ZC w (BZip p n) size in Ok (VBytes b)).
Proof using.
  intros s p n size. unfold p_read. split; (etransitivity; [exact (with_read _ _ s)|]); unfold at_once, byte_read; cbn [OpenFiles.open_source byte_content]; unfold read_file.
  - destruct (w p) as [b|]; cbn [fst snd bind]; [|reflexivity]. cbn [hread]. rewrite last_nth. reflexivity.
  - destruct (w p) as [b|]; cbn [fst snd bind]; [|reflexivity]. destruct (unzip ZC b) as [a|e]; cbn [fst snd bind]; [|reflexivity]. destruct (zread a n) as [d|]; cbn [fst snd bind opt_or_raise]; [|reflexivity]. cbn [hread]. rewrite last2_nth. reflexivity.
Qed.
Lemma closed_read uz m src h m' : open_source uz m src = (m', Ok h) -> forall m2, (forall i, In i (oids h) -> nth_error m2 i = option_map shut_obj (nth_error m' i)) -> snd (hread h m2) = Raise ValueError.
Proof using.
  assert (Q : forall h m2 m', (forall i, In i (oids h) -> nth_error m2 i = option_map shut_obj (nth_error m' i)) -> snd (hread h m2) = Raise ValueError).
  { clear. induction h; cbn [hread oids]; intros m2 m' E; try (rewrite (E o (or_introl eq_refl)); destruct (nth_error m' o) as [[]|]; reflexivity).
    specialize (IHh m2 m' E). destruct (hread h m2) as [m3 r]. cbn in *. rewrite IHh. reflexivity. }
  intros _ m2 E. exact (Q h m2 m' E).
Qed.
Lemma hclose_nth h m i : In i (oids h) -> nth_error (hclose h m) i = option_map shut_obj (nth_error m i).
Proof using.
  assert (SS : forall x, shut_obj (shut_obj x) = shut_obj x) by (now intros []).
  revert m. induction h; cbn; intros m K; auto; rewrite ?upd_nth; repeat (match goal with |- context [?a =? i] => destruct (Nat.eqb_spec a i) end); subst; intuition (subst; try congruence); destruct (nth_error m i); cbn; rewrite ?SS; reflexivity.
Qed.
(** C131: a closed handle cannot be read any more, nor can the members of a closed ZipFile be opened; and a
    handle gives what it has just once. *)
Theorem C131_after_close : forall src s h m, open_source (zips s) (objs s) src = (m, Ok h) ->
  snd (fst (run (With src (fun v => Close v (Read v Done)) Done) s)) = Raise ValueError /\
  (forall x, snd (fst (run (p_read_all src) s)) = Ok x -> empty_decodes src ->
     snd (fst (run (With src (fun v => Read v (fun _ => Read v Done)) Done) s)) = Ok (match x with VText _ => VText [] | _ => VBytes [] end)).
Proof using.
  intros src s h m E. split.
  - cbn [OpenFiles.run]. rewrite E. cbn [vars objs zips]. rewrite !last_nth.
    pose proof (closed_read _ _ _ _ _ E (hclose h m) (fun i J => hclose_nth h m i J)) as K. destruct (hread h (hclose h m)) as [m2 r]. exact K.
  - intros x R ED. unfold p_read_all in R. cbn [OpenFiles.run] in *. rewrite E in *. cbn [vars objs zips] in *. rewrite last_nth in *.
    assert (Q : (forall h dec, forall src uz m m', open_source uz m src = (m', Ok h) -> empty_decodes src -> In dec ((fix decs h := match h with HText h d => d :: decs h | _ => [] end) h) -> dec [] = Ok [])).
    { clear. intros h dec src. revert h. induction src as [p|p n|v n|t|p|b IH d|p|p d|p n d]; cbn [OpenFiles.open_source empty_decodes]; intros h uz m m' E ED J.
      - destruct (w p); [injection E as <- <-; destruct J|discriminate E].
      - destruct (read_file w p); [|discriminate E]. destruct (unzip ZC a); [|discriminate E]. destruct (zread a0 n); [injection E as <- <-; destruct J|discriminate E].
      - destruct (nth_error uz v); [|discriminate E]. destruct (nth_error m n0) as [[? ? ? ?|? a op|? ? ? ?|? ? ?]|]; try discriminate E. destruct op; [|discriminate E]. destruct (zread a n); [injection E as <- <-; destruct J|discriminate E].
      - injection E as <- <-. destruct J.
      - destruct (w p); [injection E as <- <-; destruct J as [<-|[]]; reflexivity|discriminate E].
      - destruct ED as [ED1 ED2]. destruct (OpenFiles.open_source _ _ _ _ _ _ _ b) as [m2 [h2|e]] eqn:E2; [|discriminate E]. injection E as <- <-. destruct J as [<-|J]; [exact ED1|]. exact (IH _ _ _ _ E2 ED2 J).
      - destruct (w p); [injection E as <- <-; destruct J|discriminate E].
      - destruct (w p); [injection E as <- <-; destruct J as [<-|[]]; exact ED|discriminate E].
      - destruct (OpenFiles.tar_members _ _ _ _ p); [|discriminate E]. destruct (member_text a n d); [injection E as <- <-; destruct J|discriminate E]. }
    specialize (fun dec => Q h dec src _ _ _ E ED). clear E ED.
    assert (R2 : forall m1 r1, hread h m = (m1, r1) -> forall y, r1 = Ok y -> snd (hread h m1) = Ok (match y with VText _ => VText [] | _ => VBytes [] end)).
    { clear R x. induction h as [o|o|o|o z|o t|h IH dec]; intros m1 r1 HR y ->; cbn [hread] in *;
        try (destruct (nth_error m o) as [[p b d r|p a b|z' d b r|t' b r]|] eqn:N; try discriminate HR; destruct b; try discriminate HR; inversion HR; subst; clear HR; rewrite upd_nth, Nat.eqb_refl, N; cbn;
             first [reflexivity|lazymatch goal with K : (if r then _ else _) = Ok y |- _ => destruct r; [injection K as <-; reflexivity|destruct d as [d|e]; cbn in K; [injection K as <-; reflexivity|discriminate K]] end]; fail).
      destruct (hread h m) as [m2 r2] eqn:HM. injection HR as <- HR. destruct r2 as [b|e]; [|discriminate HR]. cbn in HR.
      destruct b as [|b| | |]; try discriminate HR. destruct (dec b) as [t|e]; [|discriminate HR]. injection HR as <-.
      specialize (IH (fun d J => Q d (or_intror J)) _ _ eq_refl _ eq_refl). destruct (hread h m2) as [m3 r3]. cbn in IH |- *. subst r3. cbn. rewrite (Q dec (or_introl eq_refl)). reflexivity. }
    destruct (hread h m) as [m1 r1] eqn:HM. cbn [OpenFiles.run vars objs zips fst snd] in *. specialize (R2 _ _ eq_refl x R). destruct (hread h m1) as [m3 r3]. exact R2.
Qed.
Theorem C131_closed_zip : forall p c a n s, w p = Some c -> unzip ZC c = Ok a ->
  snd (fst (run (WithZip p (fun z => CloseZip z (p_read_all (SOpenZip z n))) Done) s)) = Raise ValueError /\
  snd (fst (run (WithZip p (fun z => p_read_all (SOpenZip z n)) Done) s)) = (let* d := opt_or_raise (zread a n) KeyError in Ok (VBytes d)).
Proof using.
  intros p c a n s W U. unfold p_read_all. cbn [OpenFiles.run OpenFiles.open_source]. unfold read_file. rewrite W. cbn [bind]. rewrite U. cbv zeta. cbn [vars objs zips]. split.
  - rewrite !last_nth. cbn [OpenFiles.run OpenFiles.open_source vars objs zips]. rewrite ?last_nth, upd_nth, Nat.eqb_refl, last_nth. reflexivity.
  - rewrite !last_nth. destruct (zread a n) as [d|]; [|reflexivity]. cbn [vars objs zips]. rewrite last_nth. cbn [hread]. rewrite last_nth. reflexivity.
Qed.
Lemma run_seq p k s : run (seq p k) s = let '(s1, r1, t1) := run p s in let '(s2, r2, t2) := run (k r1) s1 in (s2, r2, t1 ++ t2).
Proof using.
  revert s. induction p as [r|v k' IH|v k' IH|v k' IH|p k' IH|p n k' IH|src body IHb k' IH|p body IHb k' IH]; intros s; cbn [seq OpenFiles.run].
  - destruct (run (k r) s) as [[s2 r2] t2]. reflexivity.
  - destruct (nth_error (vars s) v) as [h|]; [destruct (hread h (objs s)) as [m r]|]; apply IH.
  - destruct (nth_error (vars s) v) as [h|]; apply IH.
  - destruct (nth_error (zips s) v) as [h|]; apply IH.
  - apply IH.
  - destruct (tar_empty w gunzip untar late p n (objs s)) as [m r]. rewrite IH. destruct (run (k' r) _) as [[s1 r1] t1]. destruct (run (k r1) s1) as [[s2 r2] t2]. reflexivity.
  - destruct (open_source (zips s) (objs s) src) as [m [h|e]].
    + destruct (run (body _) _) as [[s1 r1] t1]. rewrite IH. destruct (run (k' r1) _) as [[s2 r2] t2]. destruct (run (k r2) s2) as [[s3 r3] t3]. cbn [app]; rewrite <- ?app_assoc; reflexivity.
    + rewrite IH. destruct (run (k' (Raise e)) _) as [[s1 r1] t1]. destruct (run (k r1) s1) as [[s2 r2] t2]. reflexivity.
  - destruct (let* c := read_file w p in unzip ZC c) as [a|e]; [|apply IH]. cbv zeta. destruct (run (body _) _) as [[s1 r1] t1]. rewrite IH. destruct (run (k' r1) _) as [[s2 r2] t2]. destruct (run (k r2) s2) as [[s3 r3] t3]. cbn [app]; rewrite <- ?app_assoc; reflexivity.
Qed.
Lemma hread_ext h m m' : (forall i, In i (oids h) -> nth_error m i = nth_error m' i) -> snd (hread h m) = snd (hread h m').
Proof using.
  induction h; cbn; intros E; try (rewrite <- (E o (or_introl eq_refl)); destruct (nth_error m o) as [[? b ? ?|? ? b|? ? b ?|? b ?]|]; try destruct b; reflexivity).
  specialize (IHh E). destruct (hread h m), (hread h m'). cbn in *. congruence.
Qed.
(** C131: a handle is not disturbed by what is done with others, on the same archive or not: after any program that does not
    use it - also if that closes the ZipFile the handle came from - reading from it gives what
    reading at once would have given. *)
Theorem C131_undisturbed : forall src (q : nat -> prog) s, sound s -> (forall v, leaves_alone v (q v)) ->
  snd (fst (run (With src (fun v => seq (q v) (fun _ => Read v Done)) Done) s)) = snd (fst (run (p_read_all src) s)).
Proof using.
  intros src q s SD LA. unfold p_read_all. refine (eq_trans _ (eq_sym (with_read src (fun r => r) s))). cbn [OpenFiles.run]. unfold at_once.
  destruct (open_spec w ZC gunzip untar late (zips s) (objs s) src) as (l & E & H). destruct (open_source (zips s) (objs s) src) as [m [h|e]]; cbn [fst snd bind] in *; [|reflexivity].
  subst m. destruct H as (_ & RG & _). rewrite run_seq. set (s1 := {| objs := objs s ++ l; vars := vars s ++ [h]; zips := zips s |}).
  destruct SD as (O1 & O2). assert (OK1 : ok (Some (length (vars s))) s1).
  { split; [|split]; unfold s1; cbn.
    - intros v h' i K J. destruct (Nat.ltb_spec v (length (vars s))) as [Q|Q].
      + rewrite nth_error_app1 in K by lia. rewrite app_length. specialize (O1 _ _ _ K J). lia.
      + rewrite nth_error_app2 in K by lia. apply nth_error_In in K. destruct K as [<-|[]]. exact (proj2 (RG i J)).
    - intros i J. rewrite app_length. specialize (O2 i J). lia.
    - intros v K. injection K as <-. rewrite app_length. cbn. lia. }
  pose proof (run_goes w ZC gunzip untar late _ _ (avoids_some _ _ (LA (length (vars s)))) s1 OK1) as G. destruct (run (q (length (vars s))) s1) as [[s2 r2] t2]. cbn [fst snd] in G.
  destruct G as (old & new & EO & F & U & _ & _ & _ & _ & _ & (vs & EV)). cbn [OpenFiles.run]. rewrite EV. unfold s1 in *. cbn [objs vars zips] in *. rewrite nth_error_app1 by (rewrite app_length; cbn; lia). rewrite last_nth.
  pose proof (hread_ext h (objs s2) (objs s ++ l)) as X. destruct (hread h (objs s2)) as [m r]. cbn in *. apply X. intros i J.
  rewrite EO. pose proof (F2_length _ _ F) as FL. pose proof (RG i J) as RI. rewrite nth_error_app1 by lia. apply U; [lia|].
  intros [(v & h' & NA & K & J')|J']; cbn in *.
  - destruct (Nat.ltb_spec v (length (vars s))) as [Q|Q].
    + rewrite nth_error_app1 in K by lia. specialize (O1 _ _ _ K J'). lia.
    + apply NA. f_equal. assert (v < length (vars s ++ [h])) by (apply nth_error_Some; congruence). rewrite app_length in H. cbn in H. lia.
  - specialize (O2 _ J'). lia.
Qed.
(** C131: a source of a member of a ZipFile of the caller's gives the member as long as that is open, and raises ValueError after that has
    been closed; using it leaves the ZipFile as it is. *)
Theorem C131_own_zip : forall s v n z p a op, sound s -> nth_error (zips s) v = Some z -> nth_error (objs s) z = Some (OZip p a op) ->
  snd (fst (run (p_read_all (SOpenZip v n)) s)) = (if op then let* d := opt_or_raise (zread a n) KeyError in Ok (VBytes d) else Raise ValueError) /\
  nth_error (objs (fst (fst (run (p_read_all (SOpenZip v n)) s)))) z = Some (OZip p a op).
Proof using.
  intros s v n z p a op (O1 & O2) EZ EO. assert (Hz : z < length (objs s)) by (apply nth_error_Some; congruence). split.
  - unfold p_read_all. etransitivity; [exact (with_read _ (fun r => r) s)|]. unfold at_once. cbn [OpenFiles.open_source]. rewrite EZ, EO. destruct op; [|reflexivity].
    destruct (zread a n) as [d|]; [|reflexivity]. cbn [fst snd bind hread]. rewrite last_nth. reflexivity.
  - unfold p_read_all. cbn [OpenFiles.run OpenFiles.open_source]. rewrite EZ, EO. destruct op; [|exact EO]. destruct (zread a n) as [d|]; [|exact EO]. cbn [objs vars zips fst snd]. rewrite last_nth. cbn [hread]. rewrite last_nth. cbn [fst snd objs vars zips hclose].
    rewrite !upd_nth. destruct (Nat.eqb_spec (length (objs s)) z) as [K|_]; [lia|]. rewrite nth_error_app1 by lia. exact EO.
Qed.
(** n calls, one after the other, whatever they raise *)
Fixpoint times (n : nat) (p : prog) : prog := match n with 0 => Done (Ok VUnit) | S k => seq p (fun _ => times k p) end.
(** Refuted: "asking a source whether it is empty closes what it opened".  A program that asks n files in a tar file has the tar file
    open n times. *)
Theorem C131_is_empty_refuted : forall n p name dec ms, tar_members p = Ok ms -> open_files (objs (fst (fst (run (times n (p_is_empty (STgz p name dec))) start)))) (repeat p n).
Proof using.
  intros n p name dec ms T. destruct (run (times n (p_is_empty (STgz p name dec))) start) as [[s r] tr] eqn:E. destruct (C131_left_open _ _ _ _ E) as [OF _].
  assert (G : forall st, flat_map left_open (snd (run (times n (p_is_empty (STgz p name dec))) st)) = repeat p n).
  { clear -T. induction n as [|n IH]; intros st; [reflexivity|]. cbn [times]. rewrite run_seq. cbn [p_is_empty OpenFiles.run]. destruct (tar_empty w gunzip untar late p name (objs st)) as [m r].
    lazymatch goal with |- context [OpenFiles.run w ZC gunzip untar late (times n _) ?x] => specialize (IH x) end. cbn [p_is_empty] in IH. destruct (OpenFiles.run _ _ _ _ _ (times n _) _) as [[s2 r2] t2]. cbn [snd fst] in *. cbn. rewrite T. cbn. f_equal. exact IH. }
  specialize (G start). rewrite E in G. cbn [snd] in G. rewrite <- G. exact OF.
Qed.
(** Refuted: "a source that cannot be opened leaves nothing open": asking for members that are not in the zip file. *)
Theorem C131_missing_member_refuted : forall n p c a name, w p = Some c -> unzip ZC c = Ok a -> zread a name = None ->
  open_files (objs (fst (fst (run (times n (p_read_all (SZip p name))) start)))) (repeat p n).
Proof using.
  intros n p c a name W UZ ZR. destruct (run (times n (p_read_all (SZip p name))) start) as [[s r] tr] eqn:E. destruct (C131_left_open _ _ _ _ E) as [OF _].
  assert (G : forall st, flat_map left_open (snd (run (times n (p_read_all (SZip p name))) st)) = repeat p n).
  { clear -W UZ ZR. induction n as [|n IH]; intros st; [reflexivity|]. cbn [times]. rewrite run_seq. cbn [p_read_all OpenFiles.run OpenFiles.open_source]. unfold read_file. rewrite W, UZ, ZR.
    lazymatch goal with |- context [OpenFiles.run w ZC gunzip untar late (times n _) ?x] => specialize (IH x) end. unfold p_read_all in IH. destruct (OpenFiles.run _ _ _ _ _ (times n _) _) as [[s2 r2] t2]. cbn [snd fst] in *. cbn. unfold read_file. rewrite W. cbn. rewrite UZ, ZR. cbn. f_equal. exact IH. }
  specialize (G start). rewrite E in G. cbn [snd] in G. rewrite <- G. exact OF.
Qed.
End T.

(** ** A concrete case
    A zip file "z" with the members a and b, and a tar file "t" with the member c. *)
Definition zip131 : bytes := dozip IoProps.toy_zip [] [(!!"a", !!"one"); (!!"b", !!"two")].
(** the files *)
Definition w131 : world := fun p => if str_eqb p !!"z" then Some zip131 else if str_eqb p !!"t" then Some !!"t" else None.
(** toy formats *)
Definition untar131 (b : bytes) : res (list member) := Ok [{| m_name := !!"c"; m_isfile := true; m_data := Some !!"three" |}].
(** with ZipFile("z") as z:
      with from_file_in_zip(z, "a").open() as f, from_file_in_zip("z", "b").open() as g, from_file_in_tgz("t", "c").open() as h:
        z.close(); g.close(); h.read(); return f.read() *)
Definition prog131 : prog :=
  WithZip !!"z" (fun z => With (SDec (SOpenZip z !!"a") (fun b => Ok b)) (fun f => With (SZip !!"z" !!"b") (fun g => With (STgz !!"t" !!"c" (fun b => Ok b)) (fun h =>
    CloseZip z (Close g (Read h (fun r => match r with Ok (VText t) => if str_eqb t !!"three" then Read f Done else Done (Raise KeyError) | _ => Done (Raise KeyError) end)))) Done) Done) Done) Done.
(** the formats of the example *)
Notation run131 := (run w131 IoProps.toy_zip (fun b => Ok b) untar131 (fun _ => false)).
(** Nothing is left open and the text is read, although the ZipFile has been closed before. *)
Example C131_witness : exists s tr, run131 prog131 start = (s, Ok (VText !!"one"), tr) /\ tr <> [] /\ (forall e, In e tr -> left_open w131 IoProps.toy_zip (fun b => Ok b) untar131 (fun _ => false) e = []) /\
  length (objs s) = 6 /\ forall i q, ~ uses_file (objs s) i q.
Proof.
  destruct (run131 prog131 start) as [[s r] tr] eqn:E. pose proof (C131_nothing_left _ _ _ _ _ _ _ _ _ E) as N. vm_compute in E. injection E as <- <- <-.
  assert (L : forall e, In e [EOpen (SDec (SOpenZip 0 !!"a") (fun b => Ok b)); EOpen (SZip !!"z" !!"b"); EOpen (STgz !!"t" !!"c" (fun b => Ok b))] -> left_open w131 IoProps.toy_zip (fun b => Ok b) untar131 (fun _ => false) e = []).
  { intros e [<-|[<-|[<-|[]]]]; vm_compute; reflexivity. }
  eexists _, _. split; [reflexivity|]. split; [discriminate|]. split; [exact L|]. split; [reflexivity|]. exact (N L).
Qed.
(** A member that is not there, in a program that catches the exception and goes on: the zip file stays open, once for
    each attempt. *)
Example C131_left_witness : let '(s, r, tr) := run131 (With (SZip !!"z" !!"x") (fun _ => Done (Ok VUnit)) (fun _ => seq (p_read_all (STgz !!"t" !!"c" (fun b => Ok b))) (fun _ => With (SZip !!"z" !!"y") (fun _ => Done (Ok VUnit)) Done))) start in
  r = Raise KeyError /\ open_files (objs s) [!!"z"; !!"z"].
Proof.
  lazymatch goal with |- let '(_, _) := ?x in _ => destruct x as [[s r] tr] eqn:E end. destruct (C131_left_open _ _ _ _ _ _ _ _ _ E) as [OF _]. vm_compute in E. injection E as <- <- <-. split; [reflexivity|]. exact OF.
Qed.
(** The hypotheses of C131_undisturbed and C131_own_zip: inside the blocks of [prog131]. *)
Example C131_hypotheses : let s := {| objs := [OZip !!"z" [(!!"a", !!"one"); (!!"b", !!"two")] true; OExt 0 !!"one" true false]; vars := [HExt 1]; zips := [0] |} in
  sound s /\ (forall v, leaves_alone v (CloseZip 0 (With (SZip !!"z" !!"b") (fun g => Read g Done) Done))) /\ nth_error (zips s) 0 = Some 0.
Proof.
  split; [split|split; [|reflexivity]].
  - intros [|[|v]] h i K J; try discriminate K. injection K as <-. destruct J as [<-|[]]. cbn. lia.
  - intros i [<-|[]]. cbn. lia.
  - intros v. cbn. split; [|auto]. intros v' N. split; auto.
Qed.
Print Assumptions C131_left_open.
Print Assumptions C131_nothing_left.
Print Assumptions C131_contents.
Print Assumptions C131_bytes.
Print Assumptions C131_undisturbed.
Print Assumptions C131_after_close.
Print Assumptions C131_closed_zip.
Print Assumptions C131_own_zip.
Print Assumptions C131_is_empty_refuted.
Print Assumptions C131_missing_member_refuted.
