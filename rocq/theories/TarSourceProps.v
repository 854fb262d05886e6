(** * The life of a tar source object: theorems (C94) *)
From Verif Require Import Prelude PyStr TextLib Io KeyValue KeyValueSources TarSource.

(** ** Specification *)
(** What an iteration over the members [ms] should yield, and the exception it should end with, if any; [damage]: the error after the last member. *)
Inductive tar_run (kf : str -> option str) (nf flt : str -> bool) (damage : option exn) : list member -> list (str * bytes) -> option exn -> Prop :=
| tr_end : tar_run kf nf flt damage [] [] damage
| tr_key m k d ms ys e : tar_key kf nf flt m k -> m_data m = Some d -> tar_run kf nf flt damage ms ys e -> tar_run kf nf flt damage (m :: ms) ((k, d) :: ys) e
| tr_bad m k ms : tar_key kf nf flt m k -> m_data m = None -> tar_run kf nf flt damage (m :: ms) [] (Some IOError)
| tr_skip m ms ys e : (forall k, ~ tar_key kf nf flt m k) -> tar_run kf nf flt damage ms ys e -> tar_run kf nf flt damage (m :: ms) ys e.
(** The same through the interpreted source ([interpreted] = true) or directly. *)
Inductive shown {V} (f : str -> bytes -> res V) : bool -> list (str * bytes) -> option exn -> list (str * (bytes + V)) -> option exn -> Prop :=
| sh_end b e : shown f b [] e [] e
| sh_raw k d ys e zs e' : shown f false ys e zs e' -> shown f false ((k, d) :: ys) e ((k, inl d) :: zs) e'
| sh_value k d v ys e zs e' : f k d = Ok v -> shown f true ys e zs e' -> shown f true ((k, d) :: ys) e ((k, inr v) :: zs) e'
| sh_error k d x ys e : f k d = Raise x -> shown f true ((k, d) :: ys) e [] (Some x).
(** What the first [n] calls of next() return if the iterator yields [zs] and then ends, with the exception [e] if there is one. *)
Fixpoint ideal {V} (zs : list (str * (bytes + V))) (e : option exn) (n : nat) {struct n} : list (outcome (V:=V)) :=
  match n, zs with
  | 0, _ => []
  | S n', (k, v) :: zs' => Yielded k v :: ideal zs' e n'
  | S n', [] => match e with Some x => Raised x | None => Stopped end :: repeat Stopped n'
  end.
(** The outcomes of the calls of next() on iterator [i] in a history. *)
Fixpoint nexts {V} (i : nat) (h : list call) (os : list (outcome (V:=V))) : list (outcome (V:=V)) :=
  match h, os with
  | Next j :: h', o :: os' => if j =? i then o :: nexts i h' os' else nexts i h' os'
  | _ :: h', _ :: os' => nexts i h' os'
  | _, _ => []
  end.
(** How often next() is called on iterator [i]. *)
Definition asked (i : nat) (h : list call) : nat := length (filter (fun c => match c with Next j => j =? i | _ => false end) h).

Lemma tar_run_total kf nf flt dm ms : exists ys e, tar_run kf nf flt dm ms ys e.
Proof.
  induction ms as [|m ms (ys & e & IH)]; [do 2 eexists; constructor|]. destruct (tar_key_dec kf nf flt m) as [(k & Hk)|N].
  - destruct (m_data m) as [d|] eqn:D; [do 2 eexists; eapply tr_key; eauto|do 2 eexists; eapply tr_bad; eauto].
  - do 2 eexists. eapply tr_skip; eauto.
Qed.
Lemma shown_total {V} (f : str -> bytes -> res V) b ys e : exists zs e', shown f b ys e zs e'.
Proof.
  induction ys as [|[k d] ys (zs & e' & IH)]; [do 2 eexists; constructor|]. destruct b; [|do 2 eexists; constructor; eauto].
  destruct (f k d) as [v|x] eqn:E; [do 2 eexists; eapply sh_value; eauto|do 2 eexists; eapply sh_error; eauto].
Qed.

(** ** Lists *)
Lemma set_nth_length {A} (l : list A) n a : length (set_nth l n a) = length l.
Proof. revert n; induction l as [|x l IH]; intros [|n]; simpl; auto. Qed.
Lemma nth_set_same {A} (l : list A) n a x : nth_error l n = Some x -> nth_error (set_nth l n a) n = Some a.
Proof. revert n; induction l as [|y l IH]; intros [|n] E; simpl in *; try discriminate; auto. Qed.
Lemma nth_set_other {A} (l : list A) n m a : n <> m -> nth_error (set_nth l n a) m = nth_error l m.
Proof. revert n m; induction l as [|y l IH]; intros [|n] [|m] N; simpl; auto; try congruence. Qed.
Lemma nth_app_some {A} (l r : list A) n x : nth_error l n = Some x -> nth_error (l ++ r) n = Some x.
Proof. intros E. rewrite nth_error_app1; [assumption|]. apply nth_error_Some. congruence. Qed.
Lemma skipn_nth {A} (l : list A) j m : nth_error l j = Some m -> skipn j l = m :: skipn (S j) l.
Proof. revert j; induction l as [|x l IH]; intros [|j] E; simpl in *; try discriminate; [congruence|]. now apply IH. Qed.
Lemma skipn_none {A} (l : list A) j : nth_error l j = None -> skipn j l = [].
Proof. intros E. apply skipn_all2. now apply nth_error_None. Qed.

Section Life.
Context {V : Type}.
Variable key_function : str -> option str.
Variable name_filter : str -> bool.
Variable interpretation : str -> bytes -> res V.
Variable ms : list member.
Variable damage : option exn.
Notation disk := (Ok (ms, damage)).
Notation Step := (step key_function name_filter interpretation disk).
Notation Run := (run key_function name_filter interpretation disk).
Notation Adv := (advance key_function name_filter disk).
(** The archive can be opened: its first header, if any, is not damaged. *)
Hypothesis openable : ms = [] -> damage = None.

Definition wf_handle (h : handle) : Prop :=
  h_cached h <= length ms /\ (h_first h = true -> h_cached h = 1) /\ (h_loaded h = true -> h_cached h = length ms /\ damage = None).
(** Later states of a tar file. *)
Definition grows (h h' : handle) : Prop :=
  h_cached h <= h_cached h' /\ h_closed h' = h_closed h /\ (h_first h = false -> h_first h' = false) /\ (wf_handle h -> wf_handle h').
Lemma grows_refl h : grows h h.
Proof. unfold grows. auto. Qed.
Lemma grows_trans a b c : grows a b -> grows b c -> grows a c.
Proof. unfold grows. intros (A & B & C & D) (A' & B' & C' & D'). split; [lia|]. split; [congruence|]. auto. Qed.

(** position [j] has been reached in [h] *)
Definition reached (h : handle) (j : nat) : Prop := j <= h_cached h /\ (0 < j -> h_first h = false).
(** what position [j] holds *)
Definition member_at (j : nat) : res (option member) :=
  match nth_error ms j with Some m => Ok (Some m) | None => match damage with Some e => Raise e | None => Ok None end end.
Lemma iter_member_spec h j h' r : wf_handle h -> reached h j -> iter_member disk h j = (h', r) ->
  grows h h' /\ (r = member_at j \/ r = Raise IOError /\ h_closed h = true) /\ (forall m, r = Ok (Some m) -> reached h' (S j)).
Proof.
  intros (W1 & W2 & W3) (R1 & R2) E. unfold iter_member, read_member, content in E. cbn [fst snd] in E. unfold reached, grows, wf_handle, member_at.
  destruct h as [ca fi lo cl]; cbn [h_cached h_first h_loaded h_closed] in *.
  assert (B : forall k, k < length ms -> nth_error ms k <> None) by (intros k; apply nth_error_Some).
  assert (B' : forall k m, nth_error ms k = Some m -> k < length ms) by (intros k m K; apply nth_error_Some; congruence).
  assert (B'' : forall k, nth_error ms k = None -> length ms <= k) by (intros k; apply nth_error_None).
  Local Ltac fin := cbn [h_cached h_first h_loaded h_closed];
    split; [split; [lia|split; [reflexivity|split; [congruence|intros _; split; [lia|split; [intros; try discriminate; try lia; auto|intros; try discriminate; repeat match goal with H : ?x = true -> _, K : ?x = true |- _ => specialize (H K) end; (split; [lia|tauto || congruence])]]]]]
           |split; [first [left; reflexivity | right; split; reflexivity]|intros m0 Em; try discriminate Em; (split; [lia|intros; reflexivity || congruence])]].
  destruct ((j =? 0) && fi)%bool eqn:J.
  - apply andb_true_iff in J. destruct J as [J ->]. apply Nat.eqb_eq in J. subst j. specialize (W2 eq_refl). subst ca. destruct (nth_error ms 0) as [m|] eqn:N0; [|apply B'' in N0; lia].
    destruct cl; inversion E; subst; clear E; fin.
  - assert (F : fi = false \/ j = 0 /\ fi = true /\ False). { destruct (Nat.eq_dec j 0) as [->|]; [cbn in J; auto|left; apply R2; lia]. } destruct F as [->|(_ & _ & [])].
    destruct (j <? ca) eqn:C.
    + apply Nat.ltb_lt in C. destruct (nth_error ms j) as [m|] eqn:N0; [|apply B'' in N0; lia]. inversion E; subst; clear E. fin.
    + apply Nat.ltb_ge in C. assert (ca = j) as -> by lia.
      destruct lo; [destruct (W3 eq_refl) as (L & D); inversion E; clear E; assert (nth_error ms j = None) as -> by (apply nth_error_None; lia); rewrite D; fin|].
      destruct cl; [inversion E; subst; clear E; fin|].
      destruct (nth_error ms j) as [m|] eqn:N0.
      * apply B' in N0 as N1. inversion E; subst; clear E. fin.
      * apply B'' in N0 as N1. destruct damage as [e|] eqn:D; inversion E; subst; clear E; fin.
Qed.

(** Later states of all the tar files. *)
Definition evolve (a b : list handle) : Prop :=
  length b = length a /\ forall t h, nth_error a t = Some h -> exists h', nth_error b t = Some h' /\ grows h h'.
Lemma evolve_refl a : evolve a a.
Proof. split; [reflexivity|]. intros t h E. exists h. split; [assumption|apply grows_refl]. Qed.
Lemma evolve_trans a b c : evolve a b -> evolve b c -> evolve a c.
Proof.
  intros (L & A) (L' & B). split; [congruence|]. intros t h E. destruct (A t h E) as (h1 & E1 & G1). destruct (B t h1 E1) as (h2 & E2 & G2). exists h2. split; [assumption|eapply grows_trans; eauto].
Qed.
Lemma evolve_set a t h h' : nth_error a t = Some h -> grows h h' -> evolve a (set_nth a t h').
Proof.
  intros E G. split; [apply set_nth_length|]. intros u g U. destruct (Nat.eq_dec t u) as [<-|N].
  - exists h'. split; [eapply nth_set_same; eauto|]. congruence.
  - exists g. rewrite nth_set_other by assumption. split; [assumption|apply grows_refl].
Qed.
Definition wf_tars (a : list handle) : Prop := forall t h, nth_error a t = Some h -> wf_handle h.
Lemma wf_evolve a b : wf_tars a -> evolve a b -> wf_tars b.
Proof.
  intros W (L & E) t h H. assert (t < length a) as T by (rewrite <- L; apply nth_error_Some; congruence). apply nth_error_Some in T. destruct (nth_error a t) as [g|] eqn:G; [|congruence].
  destruct (E t g G) as (h' & H' & Gr). assert (h' = h) as -> by congruence. apply Gr. eapply W; eauto.
Qed.

(** The loop: it goes to the next pair of the ideal iteration, or to its end, unless a closed tar file stops it. *)
Definition loop_post (flt : str -> bool) (t : nat) (h g : handle) ys e (tars' : list handle) (p : position) (r : res (option (str * bytes))) : Prop :=
  match ys with
  | (k, d) :: ys' => r = Ok (Some (k, d)) /\ h_closed g = false /\ exists j' h', p = At t j' /\ nth_error tars' t = Some h' /\ reached h' j' /\ tar_run key_function name_filter flt damage (skipn j' ms) ys' e
  | [] => p = Finished /\ r = match e with Some x => Raise x | None => Ok None end
  end \/ p = Finished /\ r = Raise IOError /\ (h_closed h = true \/ h_closed g = true).
Lemma advance_spec flt inp t : forall fuel tars j h g, wf_tars tars -> nth_error tars t = Some h -> nth_error tars inp = Some g -> reached h j -> length ms - j < fuel ->
  forall ys e tars' p r, tar_run key_function name_filter flt damage (skipn j ms) ys e -> Adv fuel tars inp t j flt = (tars', p, r) ->
  evolve tars tars' /\ loop_post flt t h g ys e tars' p r.
Proof.
  induction fuel as [|fuel IH]; intros tars j h g W Ht Hi Rj F ys e tars' p r T E; [lia|]. cbn [advance] in E. rewrite Ht in E.
  destruct (iter_member disk h j) as [h1 r1] eqn:I1. destruct (iter_member_spec h j h1 r1 (W _ _ Ht) Rj I1) as (G1 & R1 & P1).
  pose proof (evolve_set tars t h h1 Ht G1) as Ev. pose proof (wf_evolve _ _ W Ev) as W1.
  destruct R1 as [->|(-> & Cl)]; [|inversion E; subst; split; [assumption|right; auto]].
  unfold member_at in E, P1. destruct (nth_error ms j) as [m|] eqn:M.
  2:{ rewrite (skipn_none _ _ M) in T. assert (ys = [] /\ e = damage) as (-> & ->) by (inversion T; auto). unfold loop_post. destruct damage as [x|]; inversion E; subst; split; auto. }
  rewrite (skipn_nth _ _ _ M) in T. specialize (P1 m eq_refl). assert (nth_error (set_nth tars t h1) t = Some h1) as Ht1 by (eapply nth_set_same; eauto).
  destruct (proj2 Ev inp g Hi) as (g1 & Hi1 & Gg).
  assert (j < length ms) as Jl by (apply nth_error_Some; congruence).
  destruct (tar_key_dec key_function name_filter flt m) as [(k & Hk)|N].
  - assert (exists ys', match m_data m with Some d => ys = (k, d) :: ys' /\ tar_run key_function name_filter flt damage (skipn (S j) ms) ys' e | None => ys = [] /\ e = Some IOError end) as (ys' & Y).
    { inversion T as [|? k' d ? ? ? K D T'|? k' ? K D|? ? ? ? N T']; subst; [| |now apply N in Hk].
      - assert (k' = k) as -> by (destruct K as (_ & _ & K & _), Hk as (_ & _ & Hk & _); congruence). rewrite D. eexists. split; [reflexivity|eassumption].
      - rewrite D. exists []. auto. }
    destruct Hk as (K1 & K2 & K3 & K4 & K5). rewrite K1, K2, K3, K5 in E. cbn [andb] in E. destruct k as [|c k]; [congruence|]. cbn [is_nil negb andb] in E. rewrite Hi1 in E. unfold extract_data in E.
    destruct Gg as (_ & Cc & _). rewrite Cc in E. destruct (h_closed g) eqn:Cg; [inversion E; subst; split; [assumption|right; auto]|].
    destruct (m_data m) as [d|]; [destruct Y as (-> & T')|destruct Y as (-> & ->)]; inversion E; subst; (split; [assumption|left]).
    + split; [reflexivity|]. split; [assumption|]. exists (S j), h1. auto.
    + auto.
  - assert (tar_run key_function name_filter flt damage (skipn (S j) ms) ys e) as T' by (inversion T as [|? k d ? ? ? K|? k ? K|? ? ? ? _ T']; subst; [now apply N in K|now apply N in K|assumption]).
    assert (Adv fuel (set_nth tars t h1) inp t (S j) flt = (tars', p, r)) as E'.
    { destruct (m_isfile m) eqn:K1; [|exact E]. destruct (name_filter (m_name m)) eqn:K2; [|exact E]. cbn [andb] in E. destruct (key_function (m_name m)) as [[|c k]|] eqn:K3; [exact E| |exact E]. cbn [is_nil negb andb] in E.
      destruct (flt (c :: k)) eqn:K5; [|exact E]. exfalso. apply (N (c :: k)). repeat split; congruence. }
    clear E. destruct (IH _ _ _ _ W1 Ht1 Hi1 P1 ltac:(lia) _ _ _ _ _ T' E') as (Ev' & Po). split; [eapply evolve_trans; eauto|].
    unfold loop_post in *. destruct G1 as (_ & C1 & _), Gg as (_ & Cc & _). rewrite C1, Cc in Po. exact Po.
Qed.

(** ** States of the object *)
Definition wf_state (s : source_object) : Prop :=
  wf_tars (s_tars s) /\ (forall t, s_inp s = Some t -> exists h, nth_error (s_tars s) t = Some h) /\
  forall i it t j, nth_error (s_iters s) i = Some it -> it_pos it = At t j -> s_inp s <> None /\ exists h, nth_error (s_tars s) t = Some h /\ reached h j.
(** an iterator of the source itself is only made when the source has been entered *)
Definition wf_fresh (s : source_object) : Prop := forall i it, nth_error (s_iters s) i = Some it -> it_pos it = Fresh -> s_inp s = None -> it_interpreted it = true.
Lemma wf_new : wf_state new_source.
Proof. split; [|split]; [intros [|?] ? E; discriminate E|discriminate|intros [|?] ? ? ? E; discriminate E]. Qed.
Lemma reached_grows h h' j : grows h h' -> reached h j -> reached h' j.
Proof. intros (A & _ & B & _) (C & D). split; [lia|auto]. Qed.
Lemma open_wf h : open_handle disk = Ok h -> wf_handle h /\ h_closed h = false.
Proof.
  clear openable. unfold open_handle, wf_handle. intros E. destruct ms; [destruct damage; inversion E; subst|inversion E; subst]; cbn; repeat split; auto; try lia; discriminate.
Qed.
Lemma opens : exists h, open_handle disk = Ok h.
Proof. unfold open_handle. destruct ms; [rewrite openable by reflexivity|]; eauto. Qed.

(** What iterator [it], with [zs] and then [e] still to come, may be in state [s]. *)
Definition pending (s : source_object) (it : iter) (zs : list (str * (bytes + V))) (e : option exn) : Prop :=
  exists j ys e0, tar_run key_function name_filter (it_filter it) damage (skipn j ms) ys e0 /\ shown interpretation (it_interpreted it) ys e0 zs e /\
    match it_pos it with
    | Fresh => j = 0 /\ (s_inp s = None -> it_interpreted it = true)
    | At t j' => j' = j
    | Finished => False
    end.
(** the tar files that matter to [it] are open *)
Definition live (s : source_object) (it : iter) : Prop :=
  (exists t h, s_inp s = Some t /\ nth_error (s_tars s) t = Some h /\ h_closed h = false) /\
  match it_pos it with At t _ => exists h, nth_error (s_tars s) t = Some h /\ h_closed h = false | _ => True end.
Definition some_closed (s : source_object) : Prop := exists t h, nth_error (s_tars s) t = Some h /\ h_closed h = true.

Lemma next_spec s i it zs e : wf_state s -> nth_error (s_iters s) i = Some it -> pending s it zs e ->
  exists s' o it', Step s (Next i) = (s', o) /\ s_inp s' = s_inp s /\ evolve (s_tars s) (s_tars s') /\ s_iters s' = set_nth (s_iters s) i it' /\ wf_state s' /\
    it_interpreted it' = it_interpreted it /\ it_filter it' = it_filter it /\
    (match zs with
     | (k, v) :: zs' => o = Yielded k v /\ pending s' it' zs' e /\ (live s it -> live s' it') /\ (forall t h, s_inp s = Some t -> nth_error (s_tars s) t = Some h -> h_closed h = false)
     | [] => it_pos it' = Finished /\ o = match e with Some x => Raised x | None => Stopped end
     end \/
     it_pos it' = Finished /\ o = Raised IOError /\ some_closed s /\ ~ live s it \/
     it_pos it' = Finished /\ o = Raised AssertionError /\ s_inp s = None /\ it_interpreted it = true).
Proof.
  intros (W1 & W2 & W3) Hi (j & ys & e0 & T & Sh & P). cbn [step]. unfold do_next. rewrite Hi.
  set (mk := fun p => Iter (it_interpreted it) (it_filter it) p).
  assert (WF : forall tars' p, evolve (s_tars s) tars' -> (forall t j, p = At t j -> s_inp s <> None /\ exists h, nth_error tars' t = Some h /\ reached h j) -> wf_state (Source tars' (s_inp s) (set_nth (s_iters s) i (mk p)))).
  { intros tars' p Ev Hp. split; [eapply wf_evolve; eauto|]. cbn [s_tars s_inp s_iters]. split.
    - intros t Et. destruct (W2 t Et) as (h & Hh). destruct (proj2 Ev t h Hh) as (h' & Hh' & _). eauto.
    - intros i' it' t j' E' P'. destruct (Nat.eq_dec i i') as [<-|N].
      + rewrite (nth_set_same _ _ _ _ Hi) in E'. injection E' as <-. now apply Hp.
      + rewrite nth_set_other in E' by assumption. destruct (W3 _ _ _ _ E' P') as (Q & h & Hh & Rh). split; [assumption|]. destruct (proj2 Ev t h Hh) as (h' & Hh' & G). exists h'. split; [assumption|]. eapply reached_grows; eauto. }
  destruct (s_inp s) as [inp|] eqn:Ei.
  2:{ destruct (it_pos it) as [|t j'|] eqn:Ep; [|destruct (W3 _ _ _ _ Hi Ep) as (Q & _); congruence|contradiction]. destruct P as (-> & P).
      exists (Source (s_tars s) None (set_nth (s_iters s) i (mk Finished))), (Raised AssertionError), (mk Finished). split; [reflexivity|]. split; [reflexivity|]. split; [apply evolve_refl|]. split; [reflexivity|].
      split; [apply WF; [apply evolve_refl|discriminate]|]. split; [reflexivity|]. split; [reflexivity|]. right. right. auto. }
  destruct (W2 inp eq_refl) as (g & Hg).
  assert (exists t h, nth_error (s_tars s) t = Some h /\ reached h j /\ (match it_pos it with At t' j' => t' = t /\ j' = j | Fresh => t = inp /\ j = 0 | Finished => False end)) as (t & h & Ht & Rh & Pt).
  { destruct (it_pos it) as [|t j'|] eqn:Ep; [|subst j'; destruct (W3 _ _ _ _ Hi Ep) as (_ & h & Hh & Rh); eauto 6|contradiction]. destruct P as (-> & _). exists inp, g. split; [assumption|]. split; [split; lia|auto]. }
  destruct (Adv (S (S (length ms))) (s_tars s) inp t j (it_filter it)) as [[tars' p] r] eqn:A.
  destruct (advance_spec (it_filter it) inp t (S (S (length ms))) (s_tars s) j h g W1 Ht Hg Rh ltac:(lia) _ _ _ _ _ T A) as (Ev & Po).
  assert (match it_pos it with Finished => (s, Stopped) | Fresh => resume key_function name_filter interpretation disk s i it inp inp 0 | At t j => resume key_function name_filter interpretation disk s i it inp t j end
          = resume key_function name_filter interpretation disk s i it inp t j) as -> by (destruct (it_pos it) as [|t' j'|]; [destruct Pt as (-> & ->)|destruct Pt as (-> & ->)|contradiction]; reflexivity).
  unfold resume. change (fst (content disk)) with ms. rewrite A. cbn [fst snd]. rewrite Ei. fold (mk p) (mk Finished).
  assert (Hput : nth_error (set_nth (s_iters s) i (mk p)) i = Some (mk p)) by (eapply nth_set_same; eauto).
  destruct Po as [Po|(-> & -> & Cl)].
  2:{ exists (Source tars' (Some inp) (set_nth (s_iters s) i (mk Finished))), (Raised IOError), (mk Finished). split; [reflexivity|]. split; [reflexivity|]. split; [assumption|]. split; [reflexivity|].
      split; [apply WF; [assumption|discriminate]|]. split; [reflexivity|]. split; [reflexivity|]. right. left. split; [reflexivity|]. split; [reflexivity|]. split; [unfold some_closed; destruct Cl; eauto|].
      intros ((t0 & h0 & I0 & H0 & C0) & L0). destruct (it_pos it); [destruct Pt as (-> & ->)|destruct Pt as (-> & ->); destruct L0 as (h2 & H2 & C2)|contradiction]; destruct Cl; congruence. }
  destruct ys as [|[k d] ys].
  { destruct Po as (-> & ->). inversion Sh; subst. exists (Source tars' (Some inp) (set_nth (s_iters s) i (mk Finished))), (match e with Some x => Raised x | None => Stopped end), (mk Finished).
    split; [destruct e; reflexivity|]. split; [reflexivity|]. split; [assumption|]. split; [reflexivity|]. split; [apply WF; [assumption|discriminate]|]. split; [reflexivity|]. split; [reflexivity|]. left. auto. }
  destruct Po as (-> & Cg & j' & h' & -> & Ht' & Rh' & T').
  set (s1 := Source tars' (Some inp) (set_nth (s_iters s) i (mk (At t j')))).
  assert (Cont : forall zs', shown interpretation (it_interpreted it) ys e0 zs' e -> s_inp s1 = Some inp /\ evolve (s_tars s) (s_tars s1) /\ s_iters s1 = set_nth (s_iters s) i (mk (At t j')) /\ wf_state s1 /\
    it_interpreted (mk (At t j')) = it_interpreted it /\ it_filter (mk (At t j')) = it_filter it /\ pending s1 (mk (At t j')) zs' e /\ (live s it -> live s1 (mk (At t j'))) /\
    (forall t h, Some inp = Some t -> nth_error (s_tars s) t = Some h -> h_closed h = false)).
  { intros zs' Sh'. split; [reflexivity|]. split; [assumption|]. split; [reflexivity|].
    split; [apply WF; [assumption|intros t0 j0 E; injection E as <- <-; split; [discriminate|eauto]]|]. split; [reflexivity|]. split; [reflexivity|].
    split; [exists j', ys, e0; cbn; auto|]. split; [|intros; congruence].
    intros (_ & L0). split.
    - destruct (proj2 Ev inp g Hg) as (g' & Hg' & _ & C' & _). exists inp, g'. cbn. repeat split; auto; congruence.
    - cbn. exists h'. split; [assumption|]. destruct (proj2 Ev t h Ht) as (h'' & Ht'' & _ & C' & _). assert (h'' = h') as -> by congruence. rewrite C'.
      destruct (it_pos it); [destruct Pt as (-> & ->); congruence|destruct Pt as (-> & ->); destruct L0 as (h2 & H2 & C2); congruence|contradiction]. }
  destruct (it_interpreted it) eqn:B.
  - inversion Sh as [|? ? ? ? zs' ? Sh' |? ? v ? ? zs' ? Fv Sh'|? ? x ? ? Fx]; subst.
    + rewrite Fv. destruct (Cont _ Sh') as (C1 & C2 & C3 & C4 & C5 & C6 & C7). exists s1, (Yielded k (inr v)), (mk (At t j')). repeat (split; [assumption || reflexivity|]). left. auto.
    + rewrite Fx. exists (Source tars' (Some inp) (set_nth (s_iters s) i (mk Finished))), (Raised x), (mk Finished). split; [reflexivity|]. split; [reflexivity|]. split; [assumption|]. split; [reflexivity|].
      split; [apply WF; [assumption|discriminate]|]. split; [reflexivity|]. split; [reflexivity|]. left. auto.
  - inversion Sh as [|? ? ? ? zs' ? Sh' |? ? v ? ? zs' ? Fv Sh'|? ? x ? ? Fx]; subst.
    destruct (Cont _ Sh') as (C1 & C2 & C3 & C4 & C5 & C6 & C7). exists s1, (Yielded k (inl d)), (mk (At t j')). repeat (split; [assumption || reflexivity|]). left. auto.
Qed.

(** ** Histories *)
Lemma run_cons s c h : Run s (c :: h) = (fst (Run (fst (Step s c)) h), snd (Step s c) :: snd (Run (fst (Step s c)) h)).
Proof. cbn [run]. destruct (Step s c) as [s' o]. cbn [fst snd]. destruct (Run s' h). reflexivity. Qed.
Lemma run_app s h1 h2 : Run s (h1 ++ h2) = (fst (Run (fst (Run s h1)) h2), snd (Run s h1) ++ snd (Run (fst (Run s h1)) h2)).
Proof.
  revert s; induction h1 as [|c h1 IH]; intros s; [cbn; now destruct (Run s h2)|]. cbn [app]. rewrite !run_cons. cbn [fst snd]. rewrite IH. reflexivity.
Qed.

(** Every call keeps the invariant, keeps what the iterators not called are at, and closes tar files only if it is Exit. *)
Lemma next_any s j : wf_state s -> wf_fresh s -> exists s' o, Step s (Next j) = (s', o) /\ s_inp s' = s_inp s /\ evolve (s_tars s) (s_tars s') /\ wf_state s' /\ wf_fresh s' /\ length (s_iters s') = length (s_iters s) /\
  (forall i, i <> j -> nth_error (s_iters s') i = nth_error (s_iters s) i) /\
  (forall k v, o = Yielded k v -> exists t h, s_inp s = Some t /\ nth_error (s_tars s) t = Some h /\ h_closed h = false).
Proof.
  intros W F. destruct (nth_error (s_iters s) j) as [it|] eqn:E.
  2:{ exists s, Done. cbn. unfold do_next. rewrite E. repeat (split; [auto using evolve_refl|]). discriminate. }
  destruct (tar_run_total key_function name_filter (it_filter it) damage (skipn (match it_pos it with At _ n => n | _ => 0 end) ms)) as (ys & e0 & T).
  destruct (shown_total interpretation (it_interpreted it) ys e0) as (zs & e & Sh).
  assert (it_pos it = Finished \/ pending s it zs e) as [P|P].
  { destruct (it_pos it) as [|t k|] eqn:P; [right|right|left; reflexivity]; (eexists; exists ys, e0; rewrite P; split; [exact T|]; split; [exact Sh|]; auto). split; [reflexivity|]. intros N. eapply F; eauto. }
  { exists s, Stopped. cbn. unfold do_next. rewrite E, P. repeat (split; [auto using evolve_refl|]). discriminate. }
  destruct (next_spec s j it zs e W E P) as (s' & o & it' & S1 & S2 & S3 & S4 & S5 & S6 & S7 & Cases). exists s', o. repeat (split; [assumption|]). split; [|split; [rewrite S4; apply set_nth_length|split]].
  - intros i it1 E1 P1 N1. rewrite S4 in E1. destruct (Nat.eq_dec j i) as [<-|N]; [|rewrite nth_set_other in E1 by assumption; eapply F; eauto; congruence].
    rewrite (nth_set_same _ _ _ _ E) in E1. injection E1 as <-. rewrite S2 in N1. destruct Cases as [C|[(C & _)|(C & _)]]; [|congruence|congruence]. destruct zs as [|[k v] zs]; [destruct C; congruence|].
    destruct C as (_ & (j1 & ys1 & e1 & _ & _ & Q) & _). rewrite P1 in Q. apply Q. congruence.
  - intros i N. rewrite S4. apply nth_set_other. congruence.
  - intros k v ->. destruct Cases as [C|[(_ & C & _)|(_ & C & _)]]; try discriminate C. destruct zs as [|[k1 v1] zs]; [destruct C as (_ & C); destruct e; discriminate C|]. destruct C as (_ & _ & _ & C).
    destruct (s_inp s) as [t|] eqn:Ei; [|].
    + destruct (proj1 (proj2 W) t Ei) as (h & Hh). exists t, h. repeat split; auto. eapply C; eauto.
    + exfalso. cbn [step] in S1. unfold do_next in S1. rewrite E, Ei in S1. destruct (it_pos it); inversion S1.
Qed.
(** tar files are only closed by Exit *)
Definition keeps_open (s s' : source_object) : Prop := forall t h, nth_error (s_tars s) t = Some h -> exists h', nth_error (s_tars s') t = Some h' /\ (h_closed h = false -> h_closed h' = false).
Lemma step_any s c : wf_state s -> wf_fresh s -> exists s' o, Step s c = (s', o) /\ wf_state s' /\ wf_fresh s' /\
  (forall i it, nth_error (s_iters s) i = Some it -> c <> Next i -> nth_error (s_iters s') i = Some it) /\
  (c <> Exit -> keeps_open s s') /\ (c <> Exit -> some_closed s' -> some_closed s) /\
  (c <> Enter -> s_inp s' = s_inp s) /\ (c = Enter -> exists t h, s_inp s' = Some t /\ nth_error (s_tars s') t = Some h /\ h_closed h = false) /\
  (c = Exit -> s_inp s <> None -> exists t h, s_inp s' = Some t /\ nth_error (s_tars s') t = Some h /\ h_closed h = true).
Proof.
  intros W F. destruct c as [| |b flt|j].
  - destruct opens as (h0 & Eo). destruct (open_wf h0 Eo) as (Wh & Ch). unfold step. rewrite Eo. eexists. eexists. split; [reflexivity|].
    assert (Hn : nth_error (s_tars s ++ [h0]) (length (s_tars s)) = Some h0) by (rewrite nth_error_app2, Nat.sub_diag by lia; reflexivity).
    split; [|split; [|split; [|split; [|split; [|split; [|split]]]]]].
    + split; [|split]; cbn [s_tars s_inp s_iters].
      * intros t h Et. destruct (Nat.lt_ge_cases t (length (s_tars s))); [rewrite nth_error_app1 in Et by assumption; eapply (proj1 W); eauto|]. rewrite nth_error_app2 in Et by assumption. destruct (t - length (s_tars s)) as [|[|?]]; inversion Et; subst; assumption.
      * intros t Et. injection Et as <-. eauto.
      * intros i it t j E P. split; [discriminate|]. destruct (proj2 (proj2 W) i it t j E P) as (_ & h & Hh & R). exists h. split; [now apply nth_app_some|assumption].
    + intros i it E P N. discriminate N.
    + auto.
    + intros _ t h Et. exists h. split; [now apply nth_app_some|auto].
    + intros _ (t & h & Et & C). cbn in Et. destruct (Nat.lt_ge_cases t (length (s_tars s))); [rewrite nth_error_app1 in Et by assumption; exists t, h; auto|]. rewrite nth_error_app2 in Et by assumption. destruct (t - length (s_tars s)) as [|[|?]]; inversion Et; subst; congruence.
    + congruence.
    + intros _. cbn. exists (length (s_tars s)), h0. auto.
    + discriminate.
  - unfold step. destruct (s_inp s) as [t|] eqn:Ei.
    + destruct (proj1 (proj2 W) t Ei) as (h & Hh). rewrite Hh. eexists. eexists. split; [reflexivity|].
      split; [|split; [|split; [|split; [|split; [|split; [|split]]]]]].
      * split; [|split]; cbn [s_tars s_inp s_iters].
        -- intros u g Eu. destruct (Nat.eq_dec t u) as [<-|N]; [rewrite (nth_set_same _ _ _ _ Hh) in Eu; injection Eu as <-; exact (proj1 W _ _ Hh)|rewrite nth_set_other in Eu by assumption; eapply (proj1 W); eauto].
        -- intros u Eu. try rewrite Ei in Eu. injection Eu as <-. eexists. eapply nth_set_same; eauto.
        -- intros i it u j E P. destruct (proj2 (proj2 W) i it u j E P) as (Q & g & Hg & R). split; [congruence|]. destruct (Nat.eq_dec t u) as [<-|N]; [eexists; split; [eapply nth_set_same; eauto|]; assert (g = h) as -> by congruence; exact R|exists g; rewrite nth_set_other by assumption; auto].
      * intros i it E P N. cbn in N. congruence || (eapply F; eauto).
      * auto.
      * congruence.
      * congruence.
      * intros _. cbn. congruence.
      * discriminate.
      * intros _ _. cbn. exists t. eexists. split; [assumption || reflexivity|]. split; [eapply nth_set_same; eauto|reflexivity].
    + exists s, (Raised AttributeError). split; [reflexivity|]. repeat (split; [auto || congruence|]). congruence.
  - unfold step. assert (Made : (b = false -> s_inp s <> None) -> exists s' o, (Source (s_tars s) (s_inp s) (s_iters s ++ [Iter b flt Fresh]), Iterator (V:=V) (length (s_iters s))) = (s', o) /\ wf_state s' /\ wf_fresh s' /\
      (forall i it, nth_error (s_iters s) i = Some it -> Items b flt <> Next i -> nth_error (s_iters s') i = Some it) /\
      (Items b flt <> Exit -> keeps_open s s') /\ (Items b flt <> Exit -> some_closed s' -> some_closed s) /\
      (Items b flt <> Enter -> s_inp s' = s_inp s) /\ (Items b flt = Enter -> exists t h, s_inp s' = Some t /\ nth_error (s_tars s') t = Some h /\ h_closed h = false) /\
      (Items b flt = Exit -> s_inp s <> None -> exists t h, s_inp s' = Some t /\ nth_error (s_tars s') t = Some h /\ h_closed h = true)).
    { intros B. eexists. eexists. split; [reflexivity|].
      assert (Old : forall i it, nth_error (s_iters s ++ [Iter b flt Fresh]) i = Some it -> nth_error (s_iters s) i = Some it \/ it = Iter b flt Fresh).
      { intros i it E. destruct (Nat.lt_ge_cases i (length (s_iters s))); [rewrite nth_error_app1 in E by assumption; auto|]. rewrite nth_error_app2 in E by assumption. destruct (i - length (s_iters s)) as [|[|?]]; inversion E; auto. }
      split; [|split; [|split; [|split; [|split; [|split; [|split]]]]]]; try discriminate.
      - split; [apply W|]. split; [apply W|]. cbn [s_tars s_inp s_iters]. intros i it t j E P. destruct (Old i it E) as [E'|E']; [eapply (proj2 (proj2 W)); eauto|subst it; discriminate P].
      - intros i it E P N. cbn in *. destruct (Old i it E) as [E'|E']; [eapply F; eauto|subst it; cbn in *]. destruct b; [reflexivity|]. now specialize (B eq_refl).
      - intros i it E _. cbn. now apply nth_app_some.
      - intros _ t h Et. exists h. auto.
      - auto.
      - auto. }
    destruct b, (s_inp s) eqn:Ei; try (apply Made; intros; discriminate).
    exists s, (Raised AssertionError). split; [reflexivity|]. split; [assumption|]. split; [assumption|]. split; [auto|]. split; [intros _ t h Et; exists h; auto|]. split; [auto|]. split; [auto|]. split; discriminate.
  - destruct (next_any s j W F) as (s' & o & S1 & S2 & S3 & S4 & S5 & S6 & S7 & _). exists s', o. split; [assumption|]. split; [assumption|]. split; [assumption|].
    split; [intros i it E N; rewrite S7 by congruence; assumption|].
    split; [intros _ t h Et; destruct (proj2 S3 t h Et) as (h' & H' & _ & C & _); exists h'; split; [assumption|congruence]|].
    split; [|split; [auto|split; discriminate]].
    intros _ (t & h' & Et & C). assert (t < length (s_tars s)) as T by (rewrite <- (proj1 S3); apply nth_error_Some; congruence). apply nth_error_Some in T. destruct (nth_error (s_tars s) t) as [h|] eqn:H; [|congruence].
    exists t, h. split; [assumption|]. destruct (proj2 S3 t h H) as (h'' & H'' & _ & C'' & _). congruence.
Qed.
Lemma live_keeps s s' it : live s it -> keeps_open s s' -> (exists t h, s_inp s' = Some t /\ nth_error (s_tars s') t = Some h /\ h_closed h = false) \/ s_inp s' = s_inp s -> live s' it.
Proof.
  intros ((t & h & Et & Ht & C) & L) K Hi. split.
  - destruct Hi as [Hi|Hi]; [assumption|]. destruct (K t h Ht) as (h' & H' & C'). exists t, h'. rewrite Hi. auto.
  - destruct (it_pos it); auto. destruct L as (h0 & H0 & C0). destruct (K _ h0 H0) as (h' & H' & C'). eauto.
Qed.
Lemma pending_keeps s s' it zs e : pending s it zs e -> (s_inp s' = None -> s_inp s = None) -> pending s' it zs e.
Proof. intros (j & ys & e0 & A & B & C) N. exists j, ys, e0. split; [assumption|]. split; [assumption|]. destruct (it_pos it); auto. destruct C; auto. Qed.

Lemma nexts_cons i c h o os : nexts (V:=V) i (c :: h) (o :: os) = match c with Next j => if j =? i then o :: nexts i h os else nexts i h os | _ => nexts i h os end.
Proof. reflexivity. Qed.
Lemma asked_cons i c h : asked i (c :: h) = match c with Next j => if j =? i then S (asked i h) else asked i h | _ => asked i h end.
Proof. unfold asked. cbn [filter]. destruct c as [| |b f|j]; try reflexivity. destruct (j =? i); reflexivity. Qed.

(** A finished iterator only stops. *)
Lemma finished_stops i : forall h s it, wf_state s -> wf_fresh s -> nth_error (s_iters s) i = Some it -> it_pos it = Finished -> nexts i h (snd (Run s h)) = repeat Stopped (asked i h).
Proof.
  induction h as [|c h IH]; intros s it W F E P; [reflexivity|]. rewrite run_cons. cbn [snd]. rewrite nexts_cons, asked_cons.
  destruct (step_any s c W F) as (s' & o & S1 & S2 & S3 & S4 & _). rewrite S1. cbn [fst snd].
  assert (Go : c <> Next i -> nexts i h (snd (Run s' h)) = repeat Stopped (asked i h)) by (intros N; eapply IH; eauto).
  destruct c as [| |b f|j]; try (apply Go; discriminate). destruct (j =? i) eqn:J; [|apply Go; intros Q; injection Q as ->; rewrite Nat.eqb_refl in J; discriminate].
  apply Nat.eqb_eq in J. subst j. cbn in S1. unfold do_next in S1. rewrite E, P in S1. inversion S1; subst. cbn. f_equal. eapply IH; eauto.
Qed.
(** While the source stays entered, an iterator is ideal whatever the others do. *)
Lemma live_run i : forall h s it zs e, ~ In Exit h -> wf_state s -> wf_fresh s -> nth_error (s_iters s) i = Some it -> pending s it zs e -> live s it -> nexts i h (snd (Run s h)) = ideal zs e (asked i h).
Proof.
  induction h as [|c h IH]; intros s it zs e N W F E P L; [destruct zs as [|[? ?] ?]; reflexivity|]. rewrite run_cons. cbn [snd]. rewrite nexts_cons, asked_cons.
  destruct (step_any s c W F) as (s' & o & S1 & S2 & S3 & S4 & S5 & _ & S6 & S7 & _). rewrite S1. cbn [fst snd].
  assert (c <> Exit) as NE by (intros ->; apply N; simpl; auto). assert (~ In Exit h) as N' by (simpl in N; tauto).
  assert (Go : c <> Next i -> nexts i h (snd (Run s' h)) = ideal zs e (asked i h)).
  { intros Q. assert (Hi : (exists t h, s_inp s' = Some t /\ nth_error (s_tars s') t = Some h /\ h_closed h = false) \/ s_inp s' = s_inp s) by (destruct c; [left; now apply S7|right; apply S6; discriminate..]).
    eapply IH; eauto; [|eapply live_keeps; eauto]. eapply pending_keeps; eauto. destruct L as ((t & h0 & Et & _) & _). destruct Hi as [(? & ? & -> & _)| ->]; congruence. }
  destruct c as [| |b f|j]; try (apply Go; discriminate). destruct (j =? i) eqn:J; [|apply Go; intros Q; injection Q as ->; rewrite Nat.eqb_refl in J; discriminate].
  apply Nat.eqb_eq in J. subst j. destruct (next_spec s i it zs e W E P) as (s1 & o1 & it' & T1 & T2 & T3 & T4 & T5 & T6 & T7 & Cases). rewrite S1 in T1. injection T1 as <- <-.
  assert (nth_error (s_iters s') i = Some it') as E' by (rewrite T4; eapply nth_set_same; eauto).
  destruct Cases as [C|[(_ & _ & _ & C)|(_ & _ & C & _)]]; [|contradiction|destruct L as ((t & h0 & Et & _) & _); congruence].
  destruct zs as [|[k v] zs]; cbn [ideal].
  - destruct C as (Pf & ->). f_equal. eapply finished_stops; eauto.
  - destruct C as (-> & P' & L' & _). f_equal. eapply IH; eauto.
Qed.
(** In general it is ideal up to a point, where it may be stopped by a closed tar file or because the source was never entered. *)
Lemma any_run i : forall h s it zs e, wf_state s -> wf_fresh s -> nth_error (s_iters s) i = Some it -> pending s it zs e ->
  nexts i h (snd (Run s h)) = ideal zs e (asked i h) \/
  exists n m x, n <= length zs /\ nexts i h (snd (Run s h)) = ideal zs e n ++ Raised x :: repeat Stopped m /\
    (x = IOError /\ (some_closed s \/ In Exit h) \/ x = AssertionError /\ s_inp s = None /\ it_interpreted it = true).
Proof.
  induction h as [|c h IH]; intros s it zs e W F E P; [left; destruct zs as [|[? ?] ?]; reflexivity|]. rewrite run_cons. cbn [snd]. rewrite nexts_cons, asked_cons.
  destruct (step_any s c W F) as (s' & o & S1 & S2 & S3 & S4 & S5 & Sc & S6 & S7 & _). rewrite S1. cbn [fst snd].
  assert (Inone : s_inp s' = None -> s_inp s = None) by (intros Q; destruct c; [destruct (S7 eq_refl) as (? & ? & ? & _); congruence|rewrite <- S6 by discriminate; assumption..]).
  assert (Lift : forall it', it_interpreted it' = it_interpreted it -> forall x, x = IOError /\ (some_closed s' \/ In Exit h) \/ x = AssertionError /\ s_inp s' = None /\ it_interpreted it' = true ->
     x = IOError /\ (some_closed s \/ In Exit (c :: h)) \/ x = AssertionError /\ s_inp s = None /\ it_interpreted it = true).
  { intros it' Q x [(-> & [A|A])|(-> & A & B)]; [|left; simpl; auto|right; split; [reflexivity|]; split; [auto|congruence]]. left. split; [reflexivity|]. destruct c; [left; apply Sc; [discriminate|assumption]|right; simpl; auto|left; apply Sc; [discriminate|assumption]..]. }
  assert (Go : c <> Next i -> nexts i h (snd (Run s' h)) = ideal zs e (asked i h) \/
    exists n m x, n <= length zs /\ nexts i h (snd (Run s' h)) = ideal zs e n ++ Raised x :: repeat Stopped m /\ (x = IOError /\ (some_closed s \/ In Exit (c :: h)) \/ x = AssertionError /\ s_inp s = None /\ it_interpreted it = true)).
  { intros Q. destruct (IH s' it zs e S2 S3 (S4 _ _ E Q) (pending_keeps _ _ _ _ _ P Inone)) as [R|(n & m & x & A & B & C)]; [left; assumption|right]. exists n, m, x. split; [assumption|]. split; [assumption|]. eapply Lift; eauto. }
  destruct c as [| |b f|j]; try (apply Go; discriminate). destruct (j =? i) eqn:J; [|apply Go; intros Q; injection Q as ->; rewrite Nat.eqb_refl in J; discriminate].
  apply Nat.eqb_eq in J. subst j. destruct (next_spec s i it zs e W E P) as (s1 & o1 & it' & T1 & T2 & T3 & T4 & T5 & T6 & T7 & Cases). rewrite S1 in T1. injection T1 as <- <-.
  assert (nth_error (s_iters s') i = Some it') as E' by (rewrite T4; eapply nth_set_same; eauto).
  destruct Cases as [C|[(C & -> & Cl & _)|(C & -> & Cn & Ci)]].
  - destruct zs as [|[k v] zs]; cbn [ideal].
    + destruct C as (Pf & ->). left. f_equal. eapply finished_stops; eauto.
    + destruct C as (-> & P' & _). destruct (IH s' it' zs e S2 S3 E' P') as [R|(n & m & x & A & B & D)]; [left; now rewrite R|right]. exists (S n), m, x. split; [simpl; lia|]. split; [cbn [ideal]; rewrite B; reflexivity|]. eapply Lift; eauto.
  - right. exists 0, (asked i h), IOError. split; [lia|]. split; [|left; auto]. cbn. f_equal. eapply finished_stops; eauto.
  - right. exists 0, (asked i h), AssertionError. split; [lia|]. split; [|right; auto]. cbn. f_equal. eapply finished_stops; eauto.
Qed.
Lemma run_wf : forall h s, wf_state s -> wf_fresh s -> wf_state (fst (Run s h)) /\ wf_fresh (fst (Run s h)).
Proof.
  induction h as [|c h IH]; intros s W F; [split; assumption|]. rewrite run_cons. cbn [fst]. destruct (step_any s c W F) as (s' & o & -> & W' & F' & _). now apply IH.
Qed.
Lemma run_open : forall h s, wf_state s -> wf_fresh s -> ~ In Exit h -> (exists t g, s_inp s = Some t /\ nth_error (s_tars s) t = Some g /\ h_closed g = false) ->
  exists t g, s_inp (fst (Run s h)) = Some t /\ nth_error (s_tars (fst (Run s h))) t = Some g /\ h_closed g = false.
Proof.
  induction h as [|c h IH]; intros s W F N O; [exact O|]. rewrite run_cons. cbn [fst]. destruct (step_any s c W F) as (s' & o & -> & W' & F' & _ & K & _ & S6 & S7 & _). cbn [fst]. apply IH; auto; [simpl in N; tauto|].
  destruct c as [| |b f|j]; [now apply S7|exfalso; apply N; simpl; auto|..]; (rewrite S6 by discriminate; destruct O as (t & g & O1 & O2 & O3); destruct (K ltac:(discriminate) t g O2) as (g' & G1 & G2); exists t, g'; auto).
Qed.
Lemma run_inp : forall h s, wf_state s -> wf_fresh s -> ~ In Enter h -> s_inp (fst (Run s h)) = s_inp s.
Proof.
  induction h as [|c h IH]; intros s W F N; [reflexivity|]. rewrite run_cons. cbn [fst]. destruct (step_any s c W F) as (s' & o & -> & W' & F' & _ & _ & _ & S6 & _). cbn [fst]. rewrite IH; auto; [|simpl in N; tauto]. apply S6. intros ->. apply N. simpl; auto.
Qed.
Lemma run_entered : forall h s, wf_state s -> wf_fresh s -> In Enter h \/ s_inp s <> None -> s_inp (fst (Run s h)) <> None.
Proof.
  induction h as [|c h IH]; intros s W F N; [destruct N as [[]|N]; exact N|]. rewrite run_cons. cbn [fst]. destruct (step_any s c W F) as (s' & o & -> & W' & F' & _ & _ & _ & S6 & S7 & _). cbn [fst]. apply IH; auto.
  destruct c as [| |b f|j]; [right; destruct (S7 eq_refl) as (t & g & -> & _); discriminate|..]; (destruct N as [[N|N]|N]; [discriminate N|left; exact N|right; rewrite S6 by discriminate; exact N]).
Qed.
Lemma run_closed : forall h s, wf_state s -> wf_fresh s -> some_closed (fst (Run s h)) -> some_closed s \/ In Exit h.
Proof.
  induction h as [|c h IH]; intros s W F C; [left; exact C|]. rewrite run_cons in C. cbn [fst] in C. destruct (step_any s c W F) as (s' & o & E & W' & F' & _ & _ & Sc & _). rewrite E in C. cbn [fst] in C.
  destruct (IH s' W' F' C) as [Q|Q]; [|right; simpl; auto]. destruct c as [| |b f|j]; [left; apply Sc; [discriminate|assumption]|right; simpl; auto|left; apply Sc; [discriminate|assumption]..].
Qed.
Lemma new_not_closed : ~ some_closed new_source.
Proof. intros ([|t] & h & E & _); discriminate E. Qed.
Lemma fresh_new : wf_fresh new_source.
Proof. intros [|i] it E; discriminate E. Qed.
Lemma items_spec s b flt : wf_state s -> wf_fresh s -> (b = true \/ s_inp s <> None) ->
  Step s (Items b flt) = (Source (s_tars s) (s_inp s) (s_iters s ++ [Iter b flt Fresh]), Iterator (length (s_iters s))).
Proof. intros W F [->|N]; unfold step; [now destruct (s_inp s)|]. destruct b, (s_inp s); congruence. Qed.
Lemma made_iter s s' b flt i : wf_state s -> wf_fresh s -> Step s (Items b flt) = (s', Iterator i) ->
  wf_state s' /\ wf_fresh s' /\ nth_error (s_iters s') i = Some (Iter b flt Fresh) /\ s_inp s' = s_inp s /\ s_tars s' = s_tars s /\ (b = true \/ s_inp s <> None).
Proof.
  intros W F E. destruct (step_any s (Items b flt) W F) as (s1 & o & E1 & W1 & F1 & _). rewrite E in E1. injection E1 as <- <-. split; [assumption|]. split; [assumption|].
  assert (b = true \/ s_inp s <> None) as B by (destruct b, (s_inp s) eqn:Ei; [auto..|right; discriminate|unfold step in E; rewrite Ei in E; discriminate E]).
  rewrite (items_spec s b flt W F B) in E. inversion E; subst. cbn. repeat split; auto. rewrite nth_error_app2, Nat.sub_diag by lia. reflexivity.
Qed.
Lemma fresh_pending s b flt ys e0 zs e : tar_run key_function name_filter flt damage ms ys e0 -> shown interpretation b ys e0 zs e -> (b = true \/ s_inp s <> None) -> pending s (Iter b flt Fresh) zs e.
Proof. intros T S B. exists 0, ys, e0. cbn. repeat split; auto. intros N. destruct B; congruence. Qed.
Lemma untouched i : forall h s it, wf_state s -> wf_fresh s -> nth_error (s_iters s) i = Some it -> asked i h = 0 -> nth_error (s_iters (fst (Run s h))) i = Some it.
Proof.
  induction h as [|c h IH]; intros s it W F E A; [exact E|]. rewrite run_cons. cbn [fst]. destruct (step_any s c W F) as (s' & o & -> & W' & F' & S4 & _). cbn [fst]. rewrite asked_cons in A. apply IH; auto.
  - apply S4; [assumption|]. intros ->. rewrite Nat.eqb_refl in A. discriminate.
  - destruct c; auto. destruct (_ =? _); [discriminate|assumption].
Qed.
Lemma left_silent : forall h s, wf_state s -> wf_fresh s -> ~ In Enter h -> (exists t g, s_inp s = Some t /\ nth_error (s_tars s) t = Some g /\ h_closed g = true) -> forall k v, ~ In (Yielded k v) (snd (Run s h)).
Proof.
  induction h as [|c h IH]; intros s W F N C k v; [auto|]. rewrite run_cons. cbn [snd]. destruct (step_any s c W F) as (s' & o & E & W' & F' & _ & _ & _ & S6 & _ & S8). rewrite E. cbn [fst snd].
  intros [Q|Q]; [|revert Q; apply IH; auto; [simpl in N; tauto|]].
  - subst o. destruct C as (t & g & C1 & C2 & C3). destruct c as [| |b f|j].
    + apply N. simpl; auto.
    + unfold step in E. rewrite C1, C2 in E. discriminate E.
    + unfold step in E. rewrite C1 in E. destruct b; discriminate E.
    + destruct (next_any s j W F) as (s1 & o & E1 & _ & _ & _ & _ & _ & _ & Y). rewrite E in E1. injection E1 as <- <-. destruct (Y k v eq_refl) as (t' & g' & Y1 & Y2 & Y3). congruence.
  - assert (c <> Enter) as NE by (intros ->; apply N; simpl; auto). specialize (S6 NE). destruct C as (t & g & C1 & C2 & C3). destruct c as [| |b f|j]; [congruence|apply S8; congruence|..].
    + unfold step in E. rewrite C1 in E. destruct b; inversion E; subst; cbn; eauto.
    + destruct (next_any s j W F) as (s1 & o1 & E1 & I1 & (_ & Ev) & _). rewrite E in E1. injection E1 as <- <-. destruct (Ev t g C2) as (g' & G1 & _ & G2 & _). exists t, g'. repeat split; congruence.
Qed.
End Life.

(** ** The theorems *)
(** Inside a [with] block, whatever was done with the source before (h1) and whatever the other iterators do (h2, h3), the source gives an iterator, and that iterator yields exactly the ideal
    sequence, however its calls are interleaved with the others. *)
Theorem C94_inside : forall V (kf : str -> option str) (nf : str -> bool) (f : str -> bytes -> res V) ms damage b flt ys e0 zs e h1 h2 h3,
  (ms = [] -> damage = None) -> ~ In Exit (h2 ++ h3) -> tar_run kf nf flt damage ms ys e0 -> shown f b ys e0 zs e ->
  let disk := Ok (ms, damage) in let s := fst (run kf nf f disk new_source (h1 ++ Enter :: h2)) in
  exists s' i, step kf nf f disk s (Items b flt) = (s', Iterator i) /\ nexts i h3 (snd (run kf nf f disk s' h3)) = ideal zs e (asked i h3).
Proof.
  intros V kf nf f ms damage b flt ys e0 zs e h1 h2 h3 O N T Sh disk s. subst disk.
  destruct (run_wf kf nf f ms damage O h1 new_source (wf_new ms damage) fresh_new) as (W1 & F1). 
  set (s1 := fst (run kf nf f (Ok (ms, damage)) new_source h1)) in *. destruct (step_any kf nf f ms damage O s1 Enter W1 F1) as (s2 & o & E2 & W2 & F2 & _ & _ & _ & _ & En & _). 
  assert (s = fst (run kf nf f (Ok (ms, damage)) s2 h2)) as Es. { unfold s. rewrite run_app, run_cons. fold s1. rewrite E2. reflexivity. }
  assert (N2 : ~ In Exit h2) by (intros Q; apply N, in_or_app; auto). assert (N3 : ~ In Exit h3) by (intros Q; apply N, in_or_app; auto).
  destruct (run_open kf nf f ms damage O h2 s2 W2 F2 N2 (En eq_refl)) as (t & g & I1 & I2 & I3). destruct (run_wf kf nf f ms damage O h2 s2 W2 F2) as (W & F). rewrite <- Es in I1, I2, W, F.
  assert (B : b = true \/ s_inp s <> None) by (right; congruence).
  eexists. eexists. split; [apply items_spec; eauto|].
  destruct (made_iter kf nf f ms damage O s _ b flt _ W F (items_spec kf nf f ms damage s b flt W F B)) as (W' & F' & M & I' & T' & _).
  eapply live_run; eauto.
  - eapply fresh_pending; eauto.
  - split; [|exact Logic.I]. exists t, g. cbn. auto.
Qed.
(** An iterator that was made earlier - in an earlier [with] block, or, by the interpreted source, before the first one - and is first asked inside the block does the same. *)
Theorem C94_made_before : forall V (kf : str -> option str) (nf : str -> bool) (f : str -> bytes -> res V) ms damage b flt ys e0 zs e h1 h2 h3 s' i,
  (ms = [] -> damage = None) -> tar_run kf nf flt damage ms ys e0 -> shown f b ys e0 zs e -> let disk := Ok (ms, damage) in
  step kf nf f disk (fst (run kf nf f disk new_source h1)) (Items b flt) = (s', Iterator i) -> asked i h2 = 0 -> ~ In Exit h3 ->
  nexts i h3 (snd (run kf nf f disk (fst (run kf nf f disk s' (h2 ++ [Enter]))) h3)) = ideal zs e (asked i h3).
Proof.
  intros V kf nf f ms damage b flt ys e0 zs e h1 h2 h3 s' i O T Sh disk E A N. subst disk.
  destruct (run_wf kf nf f ms damage O h1 new_source (wf_new ms damage) fresh_new) as (W1 & F1). 
  destruct (made_iter kf nf f ms damage O _ _ b flt _ W1 F1 E) as (W' & F' & M & I' & T' & B).
  destruct (run_wf kf nf f ms damage O h2 s' W' F') as (W2 & F2). pose proof (untouched kf nf f ms damage O i h2 s' _ W' F' M A) as M2. 
  destruct (step_any kf nf f ms damage O _ Enter W2 F2) as (s3 & o & E3 & W3 & F3 & K3 & _ & _ & _ & En & _). rewrite run_app, run_cons. cbn [fst]. rewrite E3. cbn [fst]. cbn [run]. cbn [fst].
  destruct (En eq_refl) as (t & g & I1 & I2 & I3). eapply live_run; eauto.
  - apply K3; [exact M2|discriminate].
  - eapply fresh_pending; eauto. right. congruence.
  - split; [|exact Logic.I]. eauto.
Qed.
(** In any history at all, an iterator yields an initial part of the ideal sequence, and if it is cut short it says so: by an OSError, only if a [with] block was left; by an AssertionError, only
    for an iterator the interpreted source made before any [with]. *)
Theorem C94_any : forall V (kf : str -> option str) (nf : str -> bool) (f : str -> bytes -> res V) ms damage b flt ys e0 zs e h1 h2 s' i,
  (ms = [] -> damage = None) -> tar_run kf nf flt damage ms ys e0 -> shown f b ys e0 zs e -> let disk := Ok (ms, damage) in
  step kf nf f disk (fst (run kf nf f disk new_source h1)) (Items b flt) = (s', Iterator i) ->
  nexts i h2 (snd (run kf nf f disk s' h2)) = ideal zs e (asked i h2) \/
  exists n m x, n <= length zs /\ nexts i h2 (snd (run kf nf f disk s' h2)) = ideal zs e n ++ Raised x :: repeat Stopped m /\
    (x = IOError /\ In Exit (h1 ++ h2) \/ x = AssertionError /\ ~ In Enter h1 /\ b = true).
Proof.
  intros V kf nf f ms damage b flt ys e0 zs e h1 h2 s' i O T Sh disk E. subst disk.
  destruct (run_wf kf nf f ms damage O h1 new_source (wf_new ms damage) fresh_new) as (W1 & F1). 
  destruct (made_iter kf nf f ms damage O _ _ b flt _ W1 F1 E) as (W' & F' & M & I' & T' & B).
  destruct (any_run kf nf f ms damage O i h2 s' _ zs e W' F' M) as [R|(n & m & x & A1 & A2 & A3)]; [|left; exact R|right].
  - eapply fresh_pending; eauto. rewrite I'. exact B.
  - exists n, m, x. split; [assumption|]. split; [assumption|]. destruct A3 as [(-> & A3)|(-> & A3 & A4)].
    + left. split; [reflexivity|]. apply in_or_app. destruct A3 as [(t & g & C1 & C2)|A3]; [|auto]. left. rewrite T' in C1.
      destruct (run_closed kf nf f ms damage O h1 new_source (wf_new ms damage) fresh_new) as [C|C]; [exists t, g; auto|now apply new_not_closed in C|exact C].
    + right. split; [reflexivity|]. split; [|exact A4]. intros Q. rewrite I' in A3. apply (run_entered kf nf f ms damage O h1 new_source (wf_new ms damage) fresh_new) in A3; auto.
Qed.
(** Before the first [with]: items() of the source fails, that of the interpreted source fails only when it is iterated over, and __exit__ fails. *)
Theorem C94_not_entered : forall V (kf : str -> option str) (nf : str -> bool) (f : str -> bytes -> res V) ms damage flt h1 h2, (ms = [] -> damage = None) -> ~ In Enter (h1 ++ h2) ->
  let disk := Ok (ms, damage) in let s := fst (run kf nf f disk new_source h1) in
  snd (step kf nf f disk s (Items false flt)) = Raised AssertionError /\ snd (step kf nf f disk s Exit) = Raised AttributeError /\
  exists s' i, step kf nf f disk s (Items true flt) = (s', Iterator i) /\ forall n, asked i h2 = S n -> nexts i h2 (snd (run kf nf f disk s' h2)) = Raised AssertionError :: repeat Stopped n.
Proof.
  intros V kf nf f ms damage flt h1 h2 O N disk s. subst disk.
  destruct (run_wf kf nf f ms damage O h1 new_source (wf_new ms damage) fresh_new) as (W1 & F1). fold s in W1, F1.
  assert (s_inp s = None) as In0. { unfold s. rewrite (run_inp kf nf f ms damage O h1 new_source (wf_new ms damage) fresh_new); [reflexivity|]. intros Q. apply N, in_or_app. auto. }
  split; [unfold step; now rewrite In0|]. split; [unfold step; now rewrite In0|].
  eexists. eexists. split; [apply items_spec; eauto|].
  destruct (made_iter kf nf f ms damage O s _ true flt _ W1 F1 (items_spec kf nf f ms damage s true flt W1 F1 (or_introl eq_refl))) as (W' & F' & M & I' & T' & _).
  set (s' := Source _ _ _) in *. set (i := length (s_iters s)) in *. assert (~ In Enter h2) as N2 by (intros Q; apply N, in_or_app; auto). clearbody s' i. rewrite In0 in I'. clear N T'.
  revert s' W' F' M I' N2. induction h2 as [|c h2 IH]; intros s' W' F' M I' N2 n A; [discriminate A|]. rewrite run_cons. cbn [snd]. rewrite nexts_cons. rewrite asked_cons in A.
  destruct (step_any kf nf f ms damage O s' c W' F') as (s2 & o & E2 & W2 & F2 & K2 & _ & _ & Si & _). rewrite E2. cbn [fst snd].
  assert (c <> Enter) as NE by (intros ->; apply N2; simpl; auto). assert (~ In Enter h2) as N2' by (simpl in N2; tauto).
  assert (Go : c <> Next i -> asked i h2 = S n -> nexts i h2 (snd (run kf nf f (Ok (ms, damage)) s2 h2)) = Raised AssertionError :: repeat Stopped n) by (intros Q R; apply IH; auto; rewrite Si; auto).
  destruct c as [| |b g|j]; try (apply Go; [discriminate|assumption]). destruct (j =? i) eqn:J; [|apply Go; [intros Q; injection Q as ->; rewrite Nat.eqb_refl in J; discriminate|assumption]].
  apply Nat.eqb_eq in J. subst j. injection A as A. unfold step, do_next in E2. rewrite M, I' in E2. cbn in E2. inversion E2; subst. f_equal. eapply finished_stops; eauto.
  - cbn. eapply nth_set_same; eauto.
  - reflexivity.
Qed.
(** After a [with] block has been left, and until the next one, nothing is yielded by any iterator, old or new. *)
Theorem C94_left : forall V (kf : str -> option str) (nf : str -> bool) (f : str -> bytes -> res V) ms damage h1 h2, (ms = [] -> damage = None) -> In Enter h1 -> ~ In Enter h2 ->
  let disk := Ok (ms, damage) in forall k v, ~ In (Yielded k v) (snd (run kf nf f disk (fst (run kf nf f disk new_source (h1 ++ [Exit]))) h2)).
Proof.
  intros V kf nf f ms damage h1 h2 O I1 N2 disk k v. subst disk. rewrite run_app, run_cons. cbn [fst run].
  destruct (run_wf kf nf f ms damage O h1 new_source (wf_new ms damage) fresh_new) as (W1 & F1). 
  pose proof (run_entered kf nf f ms damage O h1 new_source (wf_new ms damage) fresh_new (or_introl I1)) as En. 
  destruct (step_any kf nf f ms damage O _ Exit W1 F1) as (s2 & o & E2 & W2 & F2 & _ & _ & _ & _ & _ & Cl). rewrite E2. cbn [fst]. apply left_silent; auto.
Qed.
(** One might expect items() to fail after the block as it does before ("Need to enter ... before using it"): it does not, the file handle is only closed. The failure comes when the iterator is used, and
    not even then if no member is wanted. *)
Theorem C94_items_after_exit_refuted : forall V (kf : str -> option str) (nf : str -> bool) (f : str -> bytes -> res V) ms damage b flt h, (ms = [] -> damage = None) -> In Enter h ->
  let disk := Ok (ms, damage) in exists s' i, step kf nf f disk (fst (run kf nf f disk new_source (h ++ [Exit]))) (Items b flt) = (s', Iterator i).
Proof.
  intros V kf nf f ms damage b flt h O I1 disk. subst disk.
  destruct (run_wf kf nf f ms damage O (h ++ [Exit]) new_source (wf_new ms damage) fresh_new) as (W1 & F1). eexists. eexists. apply items_spec; auto. right.
  apply (run_entered kf nf f ms damage O (h ++ [Exit]) new_source (wf_new ms damage) fresh_new). left. apply in_or_app. auto.
Qed.
(** If the file cannot be opened as a tar file, entering fails with that error each time and leaves the source as it was. *)
Theorem C94_unreadable : forall V (kf : str -> option str) (nf : str -> bool) (f : str -> bytes -> res V) disk x s, disk = Raise x \/ disk = Ok ([], Some x) -> step kf nf f disk s Enter = (s, Raised x).
Proof. intros V kf nf f disk x s [->| ->]; reflexivity. Qed.

(** ** A concrete case *)
Definition wt_file (n b : str) : member := {| m_name := n; m_isfile := true; m_data := Some b |}.
Definition wt_ms : list member := [wt_file !!"x" !!"1"; {| m_name := !!"d"; m_isfile := false; m_data := None |}; wt_file !!"y" !!"2"; wt_file !!"z" !!"3"].
Definition wt_up (k : str) (d : bytes) : res str := if str_eqb k !!"z" then Raise ValueError else Ok (k ++ d).
(** Two iterators, one direct and one interpreted, interleaved; the second with an error of the interpretation; then the block is left and entered again. *)
Definition wt_h : list call := [Next 0; Next 1; Next 1; Next 0; Next 1; Next 1; Next 0].
Example C94_witness :
  tar_run (fun n => Some n) (fun _ => true) (fun _ => true) None wt_ms [(!!"x", !!"1"); (!!"y", !!"2"); (!!"z", !!"3")] None /\
  shown wt_up true [(!!"x", !!"1"); (!!"y", !!"2"); (!!"z", !!"3")] None [(!!"x", inr !!"x1"); (!!"y", inr !!"y2")] (Some ValueError) /\
  ~ In Exit ([Items false (fun _ => true); Items true (fun _ => true)] ++ wt_h) /\
  snd (run (fun n => Some n) (fun _ => true) wt_up (Ok (wt_ms, None)) new_source
        ([Items true (fun _ => true); Enter; Items false (fun _ => true)] ++ wt_h ++ [Exit; Next 1; Items false (fun _ => true); Next 2; Enter; Items true (fun k => str_eqb k !!"y"); Next 3; Next 3])) =
  [Iterator 0; Done; Iterator 1;
   Yielded !!"x" (inr !!"x1"); Yielded !!"x" (inl !!"1"); Yielded !!"y" (inl !!"2"); Yielded !!"y" (inr !!"y2"); Yielded !!"z" (inl !!"3"); Stopped; Raised ValueError;
   Done; Stopped; Iterator 2; Raised IOError; Done; Iterator 3; Yielded !!"y" (inr !!"y2"); Stopped].
Proof.
  assert (K : forall n b, n <> [] -> tar_key (fun n => Some n) (fun _ => true) (fun _ => true) (wt_file n b) n) by (intros n b N; repeat split; assumption).
  split; [|split; [|split]].
  - unfold wt_ms. apply tr_key; [apply K; discriminate|reflexivity|]. apply tr_skip; [intros k (Q & _); discriminate Q|]. apply tr_key; [apply K; discriminate|reflexivity|]. apply tr_key; [apply K; discriminate|reflexivity|]. apply tr_end.
  - apply sh_value; [reflexivity|]. apply sh_value; [reflexivity|]. now apply sh_error.
  - simpl. intros Q. repeat (destruct Q as [Q|Q]; [discriminate Q|]). exact Q.
  - vm_compute. reflexivity.
Qed.
