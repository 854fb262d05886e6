(** * Property C125: one zip sink object used for several "with" blocks, and any history of calls on it *)
From Verif Require Import Prelude PyStr SortLib TextLib Utf8 Io IoProps KeyValue KeyValueProps.

(** ** Model *)
Section Model.
Variable fname : str -> str.
Variable set_order : list str -> list str.
(** "with" blocks one after the other on one sink object, each ending before the next (key_value.py:477-508): the object keeps its set of keys *)
Fixpoint reuse (overwrite : bool) (d : disk) (s : sink) (blocks : list (list (str * value))) : disk * sink * list (res unit * list (res unit) * res unit) :=
  match blocks with
  | [] => (d, s, [])
  | ops :: r => let '(d1, s1, o) := session fname set_order overwrite d s ops in let '(d2, s2, os) := reuse overwrite d1 s1 r in (d2, s2, o :: os)
  end.
(** What is called on the object (key_value.py:477, 495, 504); when it is entered the file may be anything (another program may have changed it) *)
Inductive call := CEnter (d : disk) | CPut (k : str) (v : value) | CExit.
(** One call (key_value.py:477-508).  Simplified: if an object is entered again without having been left, Python's reference counting closes the earlier ZipFile, which writes to the file a second time; the model leaves this out
    (the theorems about [calls] speak of outcomes and of calls that leave the file alone; those about file contents use [reuse], where every block ends before the next begins) *)
Definition step (overwrite : bool) (d : disk) (s : sink) (c : call) : disk * sink * res unit :=
  match c with
  | CEnter d' => sink_enter overwrite d' s
  | CPut k v => put fname d s k v
  | CExit => sink_exit set_order d s
  end.
(** Calls in any order, every error caught by the caller (key_value.py:477-508) *)
Fixpoint calls (overwrite : bool) (d : disk) (s : sink) (cs : list call) : disk * sink * list (res unit) :=
  match cs with
  | [] => (d, s, [])
  | c :: r => let '(d1, s1, o) := step overwrite d s c in let '(d2, s2, os) := calls overwrite d1 s1 r in (d2, s2, o :: os)
  end.
End Model.

(** ** Specification *)
(** "with" blocks that append to a store. *)
Inductive spec_blocks : store -> list (list (str * value)) -> list (list (res unit)) -> store -> Prop :=
| sb_nil m : spec_blocks m [] [] m
| sb_cons m ops rs m1 blocks rss m2 : spec_puts m ops rs m1 -> spec_blocks m1 blocks rss m2 -> spec_blocks m (ops :: blocks) (rs :: rss) m2.
(** What a source shows if the keys are those of [m'], but the values those of [m'] without [m]. *)
Definition shows_without {V} (process : bytes -> res V) (K : str -> Prop) (s : source V) (m m' : store) : Prop :=
  (exists ks, src_keys s = Ok (Some ks) /\ NoDup ks /\ forall k, In k ks <-> m' k <> None) /\
  forall k, K k -> (m k <> None -> src_item s k = Raise KeyError /\ src_get s k = Ok None) /\
    (m k = None -> src_item s k = match m' k with Some b => process b | None => Raise KeyError end /\
                   src_get s k = match m' k with Some b => let* v := process b in Ok (Some v) | None => Ok None end).

Section P.
Variable fname : str -> str.
Variable set_order : list str -> list str.
Hypothesis set_order_perm : forall l, Permutation (set_order l) l.
Variable K : str -> Prop.
Hypothesis GK : good_keys fname K.
Notation session := (session fname set_order).
Notation reuse := (reuse fname set_order).

Lemma filter_new_in k s ks : In k (s ++ filter (fun k => negb (in_keys k s)) ks) <-> In k s \/ In k ks.
Proof using.
  clear. rewrite in_app_iff, filter_In. destruct (in_keys k s) eqn:E; cbn [negb].
  - apply in_keys_iff in E. intuition.
  - intuition discriminate.
Qed.
Lemma filter_new_nodup s ks : NoDup s -> NoDup ks -> NoDup (s ++ filter (fun k => negb (in_keys k s)) ks).
Proof using.
  clear. intros N M. assert (App : forall l1 l2 : list str, NoDup l1 -> NoDup l2 -> (forall x, In x l1 -> ~ In x l2) -> NoDup (l1 ++ l2)).
  { clear. induction l1 as [|x l1 IH]; intros l2 N M D; [exact M|]. inversion N as [|y z Nx N']; subst. cbn [app]. constructor.
    - intros I. apply in_app_or in I. destruct I as [I|I]; [now apply Nx|exact (D x (or_introl eq_refl) I)].
    - apply IH; [exact N'|exact M|]. intros y I. apply D. now right. }
  apply App; [exact N|now apply NoDup_filter|]. intros k I J. apply filter_In in J. destruct J as (_ & J). rewrite (proj2 (in_keys_iff k s) I) in J. discriminate.
Qed.
Lemma reenter d m s : NoDup (s_keys s) -> (forall k, In k (s_keys s) -> m k <> None) -> on_disk fname K d m ->
  exists d1 a ks, sink_enter false d s = (d1, {| s_state := Opened a; s_keys := ks |}, Ok tt) /\ holds fname K a ks m.
Proof using.
  clear. intros N Sub H. unfold sink_enter. destruct H as [(-> & E)|(a & ks & -> & R & ND & M & KK & Z)].
  - exists Partial, [], (s_keys s). cbn [entries]. change (read_keys []) with (Ok (@None (list str))). cbn [filter]. rewrite app_nil_r. split; [reflexivity|].
    assert (Nil : s_keys s = []) by (destruct (s_keys s) as [|k ks]; [reflexivity|]; exfalso; apply (Sub k (or_introl eq_refl)); apply E). rewrite Nil.
    split; [constructor|]. split; [intros k; rewrite (E k); split; [intros []|congruence]|]. split; [intros k []|]. intros k _. rewrite (E k). reflexivity.
  - exists (Zip a), a, (s_keys s ++ filter (fun k => negb (in_keys k (s_keys s))) ks). cbn [entries]. rewrite R. split; [reflexivity|].
    assert (Same : forall k, In k (s_keys s ++ filter (fun k => negb (in_keys k (s_keys s))) ks) <-> In k ks).
    { intros k. rewrite filter_new_in. split; [intros [I|I]; [apply M; now apply Sub|exact I]|auto]. }
    split; [now apply filter_new_nodup|]. split; [intros k; rewrite Same; apply M|]. split; [intros k I; apply KK; now apply Same|exact Z].
Qed.
Lemma again d m s ops rs m' : NoDup (s_keys s) -> (forall k, In k (s_keys s) -> m k <> None) -> on_disk fname K d m -> spec_puts m ops rs m' -> (forall k v, In (k, v) ops -> K k) ->
  exists d' s', session false d s ops = (d', s', (Ok tt, rs, Ok tt)) /\ on_disk fname K d' m' /\ NoDup (s_keys s') /\ (forall k, In k (s_keys s') -> m' k <> None) /\ d' <> Absent.
Proof using GK set_order_perm.
  intros N Sub H P HK. destruct (reenter d m s N Sub H) as (d1 & a & ks & E & Ho). destruct (puts_spec fname K GK _ _ _ _ P HK d1 a ks Ho) as (d2 & a2 & ks2 & P2 & H2 & _).
  destruct (exit_spec fname set_order set_order_perm K GK d2 a2 ks2 m' H2) as (a3 & ks3 & X & R & H3). unfold KeyValue.session. rewrite E, P2, X.
  eexists _, _. split; [reflexivity|]. split; [right; exists a3, ks3; auto|]. cbn [s_keys]. destruct H2 as (ND2 & M2 & _). split; [exact ND2|]. split; [intros k I; now apply M2|discriminate].
Qed.
Lemma blocks_again m blocks rss m' : spec_blocks m blocks rss m' -> (forall ops k v, In ops blocks -> In (k, v) ops -> K k) -> forall d s, NoDup (s_keys s) -> (forall k, In k (s_keys s) -> m k <> None) -> on_disk fname K d m ->
  exists d' s', reuse false d s blocks = (d', s', map (fun rs => (Ok tt, rs, Ok tt)) rss) /\ on_disk fname K d' m' /\ (d <> Absent \/ blocks <> [] -> d' <> Absent).
Proof using GK set_order_perm.
  intros B. induction B as [m|m ops rs m1 blocks rss m2 P B IH]; intros HK d s N Sub H.
  - exists d, s. split; [reflexivity|]. split; [exact H|]. intros [X|X]; congruence.
  - destruct (again d m s ops rs m1 N Sub H P (fun k v => HK ops k v (or_introl eq_refl))) as (d1 & s1 & E & H1 & N1 & Sub1 & A1).
    destruct (IH (fun ops k v I => HK ops k v (or_intror I)) d1 s1 N1 Sub1 H1) as (d2 & s2 & E2 & H2 & A2). exists d2, s2. cbn [ZipReuse.reuse map]. rewrite E, E2. split; [reflexivity|]. split; [exact H2|]. intros _. apply A2. now left.
Qed.
(** C125: one appending sink object, used for any number of "with" blocks after any history of other sessions on the file, does in each what a new sink object would do:
    puts are refused exactly for the keys in the store, and the store has everything that was accepted. *)
Theorem C125_append : forall h m blocks rss m' V (process : bytes -> res V),
  (forall s k v, In s h -> In (k, v) (snd s) -> K k) -> (forall ops k v, In ops blocks -> In (k, v) ops -> K k) ->
  spec_history empty_store h m -> spec_blocks m blocks rss m' -> h <> [] \/ blocks <> [] ->
  exists a s' z, reuse false (run_history fname set_order h Absent) new_sink blocks = (Zip a, s', map (fun rs => (Ok tt, rs, Ok tt)) rss) /\
    source_enter (Zip a) = Ok z /\ shows process K (zip_source fname process z) m'.
Proof using GK set_order_perm.
  intros h m blocks rss m' V process Hh Hb SH SB Ne.
  assert (D := history_spec fname set_order set_order_perm K GK _ h m SH Hh Absent (or_introl (conj eq_refl (fun _ => eq_refl)))).
  destruct (blocks_again m blocks rss m' SB Hb (run_history fname set_order h Absent) new_sink) as (d' & s' & E & D' & A'); [constructor|intros k []|exact D|].
  assert (NA : d' <> Absent).
  { apply A'. destruct Ne as [Ne|Ne]; [|now right]. left. destruct (C56_history fname set_order K h m V process set_order_perm GK Hh SH Ne) as (a & z & -> & _). discriminate. }
  assert (Zp : exists a, d' = Zip a) by (destruct D' as [(-> & _)|(a & ks & -> & _)]; [congruence|eauto]). destruct Zp as (a & ->).
  destruct (on_disk_shows fname K process a m' D') as (z & Ez & Sh). exists a, s', z. auto.
Qed.

(** The open archive has the values of [m'] without those of [m], and the keys [ks] of [m']. *)
Definition holds_without (a : archive) (ks : list str) (m m' : store) : Prop :=
  NoDup ks /\ (forall k, In k ks <-> m' k <> None) /\ (forall k, In k ks -> K k) /\ (forall k, m k <> None -> m' k <> None) /\
  forall k, K k -> zread a (fname k) = match m k with Some _ => None | None => m' k end.
Lemma put_new_without d a ks m m' k v b : holds_without a ks m m' -> K k -> m' k = None -> stored_as v b ->
  exists a', put fname d {| s_state := Opened a; s_keys := ks |} k v = (Partial, {| s_state := Opened a'; s_keys := ks ++ [k] |}, Ok tt) /\ holds_without a' (ks ++ [k]) m (spec_put m' k b).
Proof using GK.
  clear set_order_perm set_order. intros (ND & M & KK & Sub & Z) Hk Nk Sv. destruct (gk_name _ _ GK k Hk) as (OK & NE & NK). exists (a ++ [(fname k, b)]).
  assert (Nm : m k = None) by (destruct (m k) eqn:E; [|reflexivity]; exfalso; apply (Sub k); [congruence|exact Nk]). split.
  - unfold put. cbn [s_state s_keys]. assert (in_keys k ks = false) as ->. { apply Bool.not_true_iff_false. rewrite in_keys_iff, M. tauto. }
    assert (match v with VStr t => encode t | VBytes b0 => Ok b0 | _ => Raise ValueError end = Ok b) as E by (destruct Sv as [->|(s & -> & E)]; [reflexivity|assumption]).
    assert (writestr a (fname k) b = Ok (a ++ [(fname k, b)])) as W. { unfold writestr. rewrite zip_name_id by apply OK. destruct (fname k) eqn:F; [congruence|]. rewrite <- F in *. now apply zappend_ok. }
    destruct v as [|t|b0|]; try (destruct Sv as [X|(? & X & _)]; discriminate X); [rewrite E|replace b0 with b by congruence]; cbv iota beta; rewrite W; reflexivity.
  - split; [|split; [|split; [|split]]].
    + apply NoDup_app_snoc_; [assumption|]. rewrite M. tauto.
    + intros k'. unfold spec_put. rewrite in_app_iff. simpl. destruct (str_eqb k k') eqn:X; [apply str_eqb_eq in X; subst k'; rewrite Nk; split; [discriminate|auto]|]. apply str_eqb_neq in X. rewrite M. tauto.
    + intros k' I. apply in_app_or in I. destruct I as [I|[<-|[]]]; auto.
    + intros k' Hm. unfold spec_put. destruct (str_eqb k k'); [destruct (m' k); discriminate|now apply Sub].
    + intros k' Hk'. rewrite zread_app. unfold spec_put. destruct (str_eqb k k') eqn:X.
      * apply str_eqb_eq in X. subst k'. rewrite str_eqb_refl, Nk, Nm. reflexivity.
      * apply str_eqb_neq in X. destruct (str_eqb (fname k) (fname k')) eqn:Y; [apply str_eqb_eq in Y; apply (gk_inj _ _ GK) in Y; auto; congruence|]. auto.
Qed.
Lemma puts_without m m1 ops rs m2 : spec_puts m1 ops rs m2 -> (forall k v, In (k, v) ops -> K k) -> forall d a ks, holds_without a ks m m1 ->
  exists d' a' ks', puts fname d {| s_state := Opened a; s_keys := ks |} ops = (d', {| s_state := Opened a'; s_keys := ks' |}, rs) /\ holds_without a' ks' m m2.
Proof using GK.
  clear set_order_perm set_order. induction 1 as [m1|m1 k v b ops rs m2 Nk Sv P IH|m1 k v b ops rs m2 Nk Sv P IH]; intros HK d a ks H.
  - exists d, a, ks. auto.
  - destruct (put_new_without d a ks m m1 k v b H) as (a1 & P1 & H1); auto; [apply (HK k v); simpl; auto|]. destruct (IH (fun k v I => HK k v (or_intror I)) Partial a1 (ks ++ [k]) H1) as (d' & a' & ks' & P2 & H2).
    exists d', a', ks'. cbn [puts]. rewrite P1, P2. auto.
  - assert (H' := H). destruct H' as (ND & M & KK & Z). destruct (IH (fun k v I => HK k v (or_intror I)) d a ks H) as (d' & a' & ks' & P2 & H2).
    exists d', a', ks'. cbn [puts]. rewrite (put_dup fname d (Opened a) ks k v b); [|now apply M|discriminate|assumption]. rewrite P2. auto.
Qed.
Lemma over d s m ops rs m' : NoDup (s_keys s) -> (forall k, In k (s_keys s) <-> m k <> None) -> (forall k, In k (s_keys s) -> K k) -> spec_puts m ops rs m' -> (forall k v, In (k, v) ops -> K k) ->
  exists a ks s', session true d s ops = (Zip a, s', (Ok tt, rs, Ok tt)) /\ read_keys a = Ok (Some ks) /\ holds_without a ks m m' /\ NoDup (s_keys s') /\ (forall k, In k (s_keys s') <-> m' k <> None) /\ (forall k, In k (s_keys s') -> K k).
Proof using GK set_order_perm.
  intros N Dm Ks P HK. assert (H0 : holds_without [] (s_keys s) m m).
  { split; [exact N|]. split; [exact Dm|]. split; [exact Ks|]. split; [auto|]. intros k _. destruct (m k); reflexivity. }
  destruct (puts_without m m ops rs m' P HK Partial [] (s_keys s) H0) as (d2 & a2 & ks2 & P2 & H2).
  unfold KeyValue.session, sink_enter. change (read_keys []) with (Ok (@None (list str))). cbn [filter]. rewrite app_nil_r, P2. assert (H2' := H2). destruct H2' as (ND & M & KK & Sub & Z).
  assert (Pm := set_order_perm ks2). assert (ND' : NoDup (set_order ks2)) by (apply (Permutation_NoDup (l := ks2)); [now symmetry|assumption]).
  assert (In' : forall k, In k (set_order ks2) <-> In k ks2) by (intros k; split; apply Permutation_in; [assumption|now symmetry]).
  destruct (C58_round_trip a2 (set_order ks2) ND') as (a' & W & O & R); [intros k I; apply In' in I; apply (gk_line _ _ GK); auto|].
  exists a', (set_order ks2), {| s_state := Closed; s_keys := ks2 |}. unfold sink_exit. cbn [s_state s_keys]. rewrite W. split; [reflexivity|]. split; [|split; [|auto]].
  - apply R. split; [intros k I; apply In' in I; apply (gk_line _ _ GK); auto|]. intros E. assert (In [] ks2) as I by (apply In'; rewrite E; simpl; auto). apply KK in I. destruct (gk_line _ _ GK [] I) as (X & _). congruence.
  - split; [assumption|]. split; [intros k; rewrite In'; apply M|]. split; [intros k I; apply KK; now apply In'|]. split; [exact Sub|]. intros k Hk. rewrite O; [auto|]. now apply (gk_name _ _ GK).
Qed.
Lemma reuse_app ow l1 : forall l2 d s, reuse ow d s (l1 ++ l2) = let '(d1, s1, o1) := reuse ow d s l1 in let '(d2, s2, o2) := reuse ow d1 s1 l2 in (d2, s2, o1 ++ o2).
Proof using.
  clear. induction l1 as [|ops l1 IH]; intros l2 d s; cbn [ZipReuse.reuse app]; [destruct (reuse ow d s l2) as ((d2, s2), o2); reflexivity|].
  destruct (session ow d s ops) as ((d1, s1), o1). rewrite IH. destruct (reuse ow d1 s1 l1) as ((d2, s2), o2). destruct (reuse ow d2 s2 l2) as ((d3, s3), o3). reflexivity.
Qed.
Lemma overs m blocks rss m' : spec_blocks m blocks rss m' -> (forall ops k v, In ops blocks -> In (k, v) ops -> K k) -> forall d s, NoDup (s_keys s) -> (forall k, In k (s_keys s) <-> m k <> None) -> (forall k, In k (s_keys s) -> K k) ->
  exists d' s', reuse true d s blocks = (d', s', map (fun rs => (Ok tt, rs, Ok tt)) rss) /\ NoDup (s_keys s') /\ (forall k, In k (s_keys s') <-> m' k <> None) /\ (forall k, In k (s_keys s') -> K k).
Proof using GK set_order_perm.
  intros B. induction B as [m|m ops rs m1 blocks rss m2 P B IH]; intros HK d s N Dm Ks; [exists d, s; auto|].
  destruct (over d s m ops rs m1 N Dm Ks P (fun k v => HK ops k v (or_introl eq_refl))) as (a & ks & s1 & E & _ & _ & N1 & D1 & K1).
  destruct (IH (fun ops k v I => HK ops k v (or_intror I)) (Zip a) s1 N1 D1 K1) as (d2 & s2 & E2 & R). exists d2, s2. cbn [ZipReuse.reuse map]. rewrite E, E2. auto.
Qed.
Lemma yield_error {A V} (f : A -> res (option (str * V))) l : (exists x e, In x l /\ f x = Raise e) -> exists ys e, yield_all f l = (ys, Some e).
Proof using.
  clear. induction l as [|x l IH]; intros (y & e & I & E); [destruct I|]. cbn [yield_all]. destruct (f x) as [[kv|]|e0] eqn:Fx.
  - destruct I as [->|I]; [congruence|]. destruct IH as (ys & e1 & ->); [eauto|]. eauto.
  - destruct I as [->|I]; [congruence|]. apply IH. eauto.
  - eauto.
Qed.
(** "overwrite: whether to overwrite the file": refuted for a sink object that is used again.  An overwriting object refuses and lists the keys of all its earlier "with" blocks [blocks] as if it
    appended, but the file has the values of the last one only; if there were any before, iterating over the store fails. *)
Theorem C125_overwrite_refuted : forall d blocks rss m last rs m' V (process : bytes -> res V),
  (forall ops k v, In ops (blocks ++ [last]) -> In (k, v) ops -> K k) -> spec_blocks empty_store blocks rss m -> spec_puts m last rs m' ->
  exists a s' z, reuse true d new_sink (blocks ++ [last]) = (Zip a, s', map (fun rs => (Ok tt, rs, Ok tt)) (rss ++ [rs])) /\
    source_enter (Zip a) = Ok z /\ shows_without process K (zip_source fname process z) m m' /\
    ((exists k, m k <> None) -> exists ys e, items (zip_source fname process z) (fun _ => true) = Ok (ys, Some e)).
Proof using GK set_order_perm.
  intros d blocks rss m last rs m' V process HK B P.
  destruct (overs empty_store blocks rss m B (fun ops k v I => HK ops k v (in_or_app _ _ _ (or_introl I))) d new_sink) as (d1 & s1 & E1 & N1 & D1 & K1); [constructor|intros k; split; [intros []|intros X; now elim X]|intros k []|].
  destruct (over d1 s1 m last rs m' N1 D1 K1 P (fun k v => HK last k v (in_or_app blocks [last] last (or_intror (or_introl eq_refl))))) as (a & ks & s2 & E2 & R & (ND & M & KK & Sub & Z) & _).
  exists a, s2, (Some (a, Some ks)). split; [|split; [unfold source_enter; now rewrite R|split]].
  - rewrite reuse_app, E1. cbn [ZipReuse.reuse]. rewrite E2, map_app. reflexivity.
  - split; [exists ks; auto|]. intros k Hk. cbn. rewrite (Z k Hk). split; intros Hm.
    + destruct (m k); [auto|congruence].
    + rewrite Hm. destruct (m' k) as [b|]; [|split; reflexivity]. destruct (process b); split; reflexivity.
  - intros (k & Hm). assert (I : In k ks) by (apply M; now apply Sub). unfold items. cbn [zip_source src_keys bind].
    destruct (yield_error (fun k => if (fun _ => true) k then let* v := src_item (zip_source fname process (Some (a, Some ks))) k in Ok (Some (k, v)) else Ok None) ks) as (ys & e & E).
    + exists k, KeyError. split; [exact I|]. cbn. rewrite (Z k (KK k I)). destruct (m k); [reflexivity|congruence].
    + exists ys, e. f_equal. exact E.
Qed.
End P.

Section Q.
Variable fname : str -> str.
Variable set_order : list str -> list str.
Variable overwrite : bool.
Notation step := (step fname set_order overwrite).
Notation calls := (calls fname set_order overwrite).
Lemma calls_app l1 : forall l2 d s, calls d s (l1 ++ l2) = let '(d1, s1, o1) := calls d s l1 in let '(d2, s2, o2) := calls d1 s1 l2 in (d2, s2, o1 ++ o2).
Proof.
  induction l1 as [|c l1 IH]; intros l2 d s; cbn [ZipReuse.calls app]; [destruct (calls d s l2) as ((d2, s2), o2); reflexivity|].
  destruct (step d s c) as ((d1, s1), o1). rewrite IH. destruct (calls d1 s1 l1) as ((d2, s2), o2). destruct (calls d2 s2 l2) as ((d3, s3), o3). reflexivity.
Qed.
Lemma calls_length l : forall d s, length (snd (calls d s l)) = length l.
Proof. induction l as [|c l IH]; intros d s; [reflexivity|]. cbn [ZipReuse.calls]. destruct (step d s c) as ((d1, s1), o1). specialize (IH d1 s1). destruct (calls d1 s1 l) as ((d2, s2), o2). cbn [snd length] in *. now rewrite IH. Qed.
(** Once entered, never again not opened; keys are never forgotten. *)
Definition grows (s s' : sink) : Prop := (s_state s <> NotOpened -> s_state s' <> NotOpened) /\ incl (s_keys s) (s_keys s').
Lemma put_grows d s k v : grows s (snd (fst (put fname d s k v))).
Proof.
  unfold put. destruct s as [st ks]. cbn [s_state s_keys]. assert (Id : grows {| s_state := st; s_keys := ks |} {| s_state := st; s_keys := ks |}) by (split; [auto|apply incl_refl]).
  assert (Kn : forall st', st' <> NotOpened -> grows {| s_state := st; s_keys := ks |} {| s_state := st'; s_keys := ks ++ [k] |}) by (intros st' N; split; [intros _; exact N|apply incl_appl, incl_refl]).
  destruct st as [|a|]; [exact Id| |]; (destruct v as [|t|b|]; [exact Id|..]); (destruct (in_keys k ks); [exact Id|]); try (destruct (encode t) as [x|e]); try (apply Kn; discriminate);
  try (destruct (writestr a (fname k) x) as [a'|e]; apply Kn; discriminate); (destruct (writestr a (fname k) b) as [a'|e]; apply Kn; discriminate).
Qed.
Lemma step_grows d s c : grows s (snd (fst (step d s c))).
Proof.
  destruct c as [d'|k v|]; [|apply put_grows|].
  - unfold ZipReuse.step, sink_enter. cbv zeta. lazymatch goal with |- context [match read_keys ?m with _ => _ end] => destruct (read_keys m) as [o|e] end; cbn [fst snd]; (split; [intros _; discriminate|]); cbn [s_keys]; [apply incl_appl|]; apply incl_refl.
  - unfold ZipReuse.step, sink_exit. destruct s as [st ks]. cbn [s_state s_keys]. destruct st as [|a|]; [split; [auto|apply incl_refl]| |split; [auto|apply incl_refl]].
    destruct (write_keys a (set_order ks)) as [a'|e]; cbn [fst snd]; (split; [intros _; discriminate|apply incl_refl]).
Qed.
Lemma grows_trans s1 s2 s3 : grows s1 s2 -> grows s2 s3 -> grows s1 s3.
Proof. intros (A & B) (C & D). split; [auto|]. eapply incl_tran; eassumption. Qed.
Lemma calls_grow l : forall d s, grows s (snd (fst (calls d s l))).
Proof.
  induction l as [|c l IH]; intros d s; [split; [auto|apply incl_refl]|]. cbn [ZipReuse.calls]. assert (G := step_grows d s c). destruct (step d s c) as ((d1, s1), o1). cbn [fst snd] in G. specialize (IH d1 s1). destruct (calls d1 s1 l) as ((d2, s2), o2). cbn [fst snd] in *. exact (grows_trans _ _ _ G IH).
Qed.
Lemma entered_opened l : forall d s, (exists d', In (CEnter d') l) -> s_state (snd (fst (calls d s l))) <> NotOpened.
Proof.
  induction l as [|c l IH]; intros d s (d' & I); [destruct I|]. cbn [ZipReuse.calls]. destruct (step d s c) as ((d1, s1), o1) eqn:E. assert (G := calls_grow l d1 s1). assert (IH' := IH d1 s1). destruct (calls d1 s1 l) as ((d2, s2), o2). cbn [fst snd] in *. destruct I as [->|I]; [|apply IH'; eauto].
  apply G. unfold ZipReuse.step, sink_enter in E. cbv zeta in E. lazymatch type of E with context [match read_keys ?m with _ => _ end] => destruct (read_keys m) as [o|e] end; injection E as _ <- _; discriminate.
Qed.
Lemma put_uses d s k v : s_state s <> NotOpened -> v <> VNone -> In k (s_keys (snd (fst (put fname d s k v)))).
Proof.
  intros No Nv. unfold put. destruct s as [st ks]. cbn [s_state s_keys] in *. assert (L : In k (ks ++ [k])) by (apply in_or_app; right; now left).
  destruct st as [|a|]; [congruence| |]; (destruct v as [|t|b|]; [congruence|..]); (destruct (in_keys k ks) eqn:IK; [apply in_keys_iff in IK; exact IK|]); try (destruct (encode t) as [x|e]); try exact L;
  try (destruct (writestr a (fname k) x) as [a'|e]; exact L); (destruct (writestr a (fname k) b) as [a'|e]; exact L).
Qed.
(** C125: whatever is called on a zip sink object, in whatever order and whatever becomes of the file: once a put of a key (and a value that is not None) has been tried after the object was first entered, whether it
    succeeded or failed, in this "with" block or in an earlier one, every later put of that key raises ValueError and changes nothing. *)
Theorem C125_never_again : forall d l1 k v l2 v', (exists d', In (CEnter d') l1) -> v <> VNone ->
  exists d1 s1 os, calls d new_sink (l1 ++ CPut k v :: l2) = (d1, s1, os) /\ calls d new_sink ((l1 ++ CPut k v :: l2) ++ [CPut k v']) = (d1, s1, os ++ [Raise ValueError]).
Proof.
  intros d l1 k v l2 v' En Nv. rewrite (calls_app (l1 ++ CPut k v :: l2)). destruct (calls d new_sink (l1 ++ CPut k v :: l2)) as ((d1, s1), os) eqn:E. exists d1, s1, os. split; [reflexivity|].
  rewrite calls_app in E. assert (O := entered_opened l1 d new_sink En). destruct (calls d new_sink l1) as ((d0, s0), o0). cbn [fst snd] in O. cbn [ZipReuse.calls] in E. assert (G := put_grows d0 s0 k v). assert (U := put_uses d0 s0 k v O Nv). unfold ZipReuse.step in E.
  destruct (put fname d0 s0 k v) as ((d2, s2), o2). cbn [fst snd] in G, U. assert (G2 := calls_grow l2 d2 s2). destruct (calls d2 s2 l2) as ((d3, s3), o3). cbn [fst snd] in G2. injection E as <- <- <-.
  cbn [ZipReuse.calls]. unfold ZipReuse.step. rewrite (C56_duplicate fname d3 s3 k v'); [reflexivity|exact (proj1 G2 (proj1 G O))|exact (proj2 G2 k U)].
Qed.
(** C125: so of all puts of one key on one object at most one is accepted. *)
Theorem C125_once : forall d l1 k v l2 v' l3 d1 s1 os, calls d new_sink (l1 ++ CPut k v :: l2 ++ CPut k v' :: l3) = (d1, s1, os) ->
  nth_error os (length l1) = Some (Ok tt) -> nth_error os (length l1 + 1 + length l2) = Some (Raise ValueError).
Proof.
  intros d l1 k v l2 v' l3 d1 s1 os E Ok1.
  assert (En : (exists d', In (CEnter d') l1) /\ v <> VNone).
  { rewrite calls_app in E. destruct (calls d new_sink l1) as ((d0, s0), o0) eqn:E0. assert (L0 := calls_length l1 d new_sink). rewrite E0 in L0. cbn [snd] in L0. cbn [ZipReuse.calls] in E. unfold ZipReuse.step at 1 in E.
    destruct (put fname d0 s0 k v) as ((d2, s2), o2) eqn:P. destruct (calls d2 s2 (l2 ++ CPut k v' :: l3)) as ((d3, s3), o3). injection E as _ _ <-. rewrite nth_error_app2 in Ok1 by (rewrite L0; apply Nat.le_refl). rewrite L0, Nat.sub_diag in Ok1. cbn [nth_error] in Ok1. injection Ok1 as ->.
    assert (St : s_state s0 <> NotOpened) by (intros X; unfold put in P; rewrite X in P; discriminate P). split.
    - clear -E0 St. assert (G : forall l d s d0 s0 o0, calls d s l = (d0, s0, o0) -> s_state s = NotOpened -> s_state s0 <> NotOpened -> exists d', In (CEnter d') l).
      { clear. induction l as [|c l IH]; intros d s d0 s0 o0 E N O; cbn [ZipReuse.calls] in E; [injection E as -> -> _; congruence|]. destruct (step d s c) as ((d1, s1), o1) eqn:Es. destruct (calls d1 s1 l) as ((d2, s2), o2) eqn:El. injection E as <- <- _.
        destruct c as [d'|k v|]; [exists d'; now left| |]; (destruct (IH d1 s1 _ _ _ El) as (d' & I); [|exact O|exists d'; now right]).
        - unfold ZipReuse.step, put in Es. rewrite N in Es. now injection Es as _ <- _.
        - unfold ZipReuse.step, sink_exit in Es. rewrite N in Es. now injection Es as _ <- _. }
      exact (G l1 d new_sink d0 s0 o0 E0 eq_refl St).
    - intros ->. rewrite C56_none in P. discriminate P. }
  destruct En as (En & Nv). destruct (C125_never_again d l1 k v l2 v' En Nv) as (da & sa & oa & Ea & Eb).
  replace (l1 ++ CPut k v :: l2 ++ CPut k v' :: l3) with (((l1 ++ CPut k v :: l2) ++ [CPut k v']) ++ l3) in E by (rewrite <- !app_assoc; reflexivity).
  rewrite calls_app, Eb in E. destruct (calls da sa l3) as ((dz, sz), oz). injection E as _ _ <-. assert (L := calls_length (l1 ++ CPut k v :: l2) d new_sink). rewrite Ea in L. cbn [snd] in L. rewrite app_length in L. cbn [length] in L.
  rewrite <- app_assoc. rewrite nth_error_app2 by (rewrite L, <- Nat.add_assoc; apply Nat.le_refl). rewrite L. replace (length l1 + 1 + length l2 - (length l1 + Datatypes.S (length l2))) with 0 by (rewrite <- Nat.add_assoc; cbn [Nat.add]; now rewrite Nat.sub_diag). reflexivity.
Qed.
(** C125: after a "with" block has ended well nothing can be written until the object is entered again: every call raises and the file stays as it is. *)
Theorem C125_closed : forall d l1 l2 d1 s1 os, calls d new_sink (l1 ++ [CExit]) = (d1, s1, os ++ [Ok tt]) -> (forall c, In c l2 -> forall d', c <> CEnter d') ->
  exists s2 os2, calls d new_sink ((l1 ++ [CExit]) ++ l2) = (d1, s2, (os ++ [Ok tt]) ++ os2) /\ Forall (fun o => exists e, o = Raise e) os2.
Proof.
  intros d l1 l2 d1 s1 os E Ne. rewrite calls_app, E. assert (St : s_state s1 = Closed).
  { rewrite calls_app in E. destruct (calls d new_sink l1) as ((d0, s0), o0). cbn [ZipReuse.calls] in E. unfold ZipReuse.step, sink_exit in E. destruct (s_state s0) as [|a|].
    - exfalso. apply (f_equal snd) in E. cbn [snd] in E. apply app_inj_tail in E. destruct E as (_ & E). discriminate E.
    - destruct (write_keys a (set_order (s_keys s0))) as [a'|e].
      + apply (f_equal (fun x => snd (fst x))) in E. cbn [fst snd] in E. now rewrite <- E.
      + exfalso. apply (f_equal snd) in E. cbn [snd] in E. apply app_inj_tail in E. destruct E as (_ & E). discriminate E.
    - exfalso. apply (f_equal snd) in E. cbn [snd] in E. apply app_inj_tail in E. destruct E as (_ & E). destruct (encode (py_join [LF] (set_order (s_keys s0)))); discriminate E. }
  clear E. assert (G : forall l s, s_state s = Closed -> (forall c, In c l -> forall d', c <> CEnter d') -> exists s2 os2, calls d1 s l = (d1, s2, os2) /\ Forall (fun o => exists e, o = Raise e) os2).
  { clear. induction l as [|c l IH]; intros s St Ne; [exists s, []; auto|]. assert (Nx : exists s' e, step d1 s c = (d1, s', Raise e) /\ s_state s' = Closed).
    { destruct c as [d'|k v|]; [exfalso; exact (Ne _ (or_introl eq_refl) d' eq_refl)| |].
      - unfold ZipReuse.step, put. rewrite St. destruct v as [|t|b|]; [eexists _, _; split; [reflexivity|exact St]|..]; (destruct (in_keys k (s_keys s)); [eexists _, _; split; [reflexivity|exact St]|]); try (destruct (encode t) as [x|e]); eexists _, _; (split; [reflexivity|reflexivity]).
      - unfold ZipReuse.step, sink_exit. rewrite St. destruct (encode (py_join [LF] (set_order (s_keys s)))); eexists _, _; (split; [reflexivity|exact St]). }
    destruct Nx as (s' & e & E & St'). destruct (IH s' St' (fun c I => Ne c (or_intror I))) as (s2 & os2 & E2 & F). exists s2, (Raise e :: os2). cbn [ZipReuse.calls]. rewrite E, E2. split; [reflexivity|]. constructor; [eauto|exact F]. }
  destruct (G l2 s1 St Ne) as (s2 & os2 & E2 & F). exists s2, os2. rewrite E2. auto.
Qed.
End Q.

(** Keys that work with the default functions (C55) *)
Definition keys125 (k : str) : Prop := k <> [] /\ ~ In LF k /\ ~ In 0%N k /\ encodable k /\ k <> keys_entry.
Example C125_witness : let b1 := [(!!"a", VStr !!"1")] in let b2 := [(!!"b", VBytes !!"2"); (!!"a", VStr !!"3")] in let b3 := [(!!"a", VStr !!"4"); (!!"c", VStr !!"5")] in
  let rss := [[Ok tt]; [Ok tt; Raise ValueError]; [Raise ValueError; Ok tt]] in
  good_keys (fun k => k) keys125 /\ keys125 !!"a" /\
  (exists m m', spec_history empty_store [(true, b1)] m /\ spec_blocks m [b2; b3] [[Ok tt; Raise ValueError]; [Raise ValueError; Ok tt]] m' /\ m' !!"a" = Some !!"1" /\ m' !!"c" = Some !!"5") /\
  (exists m m', spec_blocks empty_store [b1; b2] [[Ok tt]; [Ok tt; Raise ValueError]] m /\ spec_puts m b3 [Raise ValueError; Ok tt] m' /\ m !!"a" <> None) /\
  (exists a s, reuse (fun k => k) (fun l => l) false Absent new_sink [b1; b2; b3] = (Zip a, s, map (fun rs => (Ok tt, rs, Ok tt)) rss) /\
     read_keys a = Ok (Some [!!"a"; !!"b"; !!"c"]) /\ zread a !!"a" = Some !!"1" /\ zread a !!"b" = Some !!"2" /\ zread a !!"c" = Some !!"5") /\
  (exists a s, reuse (fun k => k) (fun l => l) true Absent new_sink [b1; b2; b3] = (Zip a, s, map (fun rs => (Ok tt, rs, Ok tt)) rss) /\
     read_keys a = Ok (Some [!!"a"; !!"b"; !!"c"]) /\ zread a !!"a" = None /\ zread a !!"b" = None /\ zread a !!"c" = Some !!"5") /\
  snd (calls (fun k => k) (fun l => l) true Absent new_sink [CPut !!"a" (VStr !!"1"); CEnter Absent; CPut !!"a" VOther; CPut !!"a" (VStr !!"1"); CPut !!"b" (VStr !!"1"); CExit; CPut !!"b" (VStr !!"2"); CPut !!"c" (VStr !!"3"); CEnter Absent; CPut !!"b" (VStr !!"4"); CPut !!"c" (VStr !!"5")]) =
    [Raise AssertionError; Ok tt; Raise ValueError; Raise ValueError; Ok tt; Ok tt; Raise ValueError; Raise ValueError; Ok tt; Raise ValueError; Raise ValueError].
Proof.
  cbv zeta. split; [exact C55_default_keys|]. split.
  { split; [discriminate|]. split; [vm_compute; intuition discriminate|]. split; [vm_compute; intuition discriminate|]. split; [|discriminate]. repeat constructor; vm_compute; intuition discriminate. }
  split.
  { eexists _, _. split; [econstructor; [eapply sp_new; [reflexivity|right; eexists; split; [reflexivity|vm_compute; reflexivity]|apply sp_nil]|apply sh_nil]|].
    split.
    - eapply sb_cons; [|eapply sb_cons; [|apply sb_nil]].
      + eapply sp_new; [reflexivity|left; reflexivity|]. eapply sp_dup; [vm_compute; discriminate|right; eexists; split; [reflexivity|vm_compute; reflexivity]|apply sp_nil].
      + eapply sp_dup; [vm_compute; discriminate|right; eexists; split; [reflexivity|vm_compute; reflexivity]|]. eapply sp_new; [reflexivity|right; eexists; split; [reflexivity|vm_compute; reflexivity]|apply sp_nil].
    - split; vm_compute; reflexivity. }
  split.
  { eexists _, _. split.
    - eapply sb_cons; [eapply sp_new; [reflexivity|right; eexists; split; [reflexivity|vm_compute; reflexivity]|apply sp_nil]|]. eapply sb_cons; [|apply sb_nil].
      eapply sp_new; [reflexivity|left; reflexivity|]. eapply sp_dup; [vm_compute; discriminate|right; eexists; split; [reflexivity|vm_compute; reflexivity]|apply sp_nil].
    - split; [eapply sp_dup; [vm_compute; discriminate|right; eexists; split; [reflexivity|vm_compute; reflexivity]|]; eapply sp_new; [reflexivity|right; eexists; split; [reflexivity|vm_compute; reflexivity]|apply sp_nil]|vm_compute; discriminate]. }
  split; [eexists _, _; split; [vm_compute; reflexivity|repeat split; vm_compute; reflexivity]|].
  split; [eexists _, _; split; [vm_compute; reflexivity|repeat split; vm_compute; reflexivity]|]. vm_compute. reflexivity.
Qed.
Print Assumptions C125_append.
Print Assumptions C125_overwrite_refuted.
Print Assumptions C125_never_again.
Print Assumptions C125_once.
Print Assumptions C125_closed.
