(** * C106: views of range sets are live; iterating over a set while adding to it *)
From Verif Require Import Prelude Order Range RangeFacts RangeProofs1 RangeProofs RangeProps SortedDict RangeSet RangeSetOps RangeSetProofs RangeSetProofs2 RangeSetProps RangeSetHeap RangeObjProps RangeLive.

Section Proofs.
Context {T : Type} {O : TotalOrder T}.
Lemma addr_kept (w : world T) c i k a : nth_error (objs w) i = Some (k, a) -> nth_error (objs (fst (exec w c))) i = Some (k, a).
Proof.
  intros E. assert (Al : forall k' d, nth_error (objs (alloc w k' d)) i = Some (k, a)).
  { intros k' d. cbn [alloc objs]. rewrite nth_error_app1; [exact E|]. apply nth_error_Some. congruence. }
  destruct c as [| |j o|j r|j|j]; cbn [exec]; try (apply Al); destruct (nth_error (objs w) j) as [[[] b]|] eqn:Ej; cbn [fst]; try exact E; try (apply Al);
    match goal with |- context [step ?d ?o] => destruct (step d o) end; exact E.
Qed.
Lemma addr_all (p : list (cmd T)) : forall (w : world T) i k a, nth_error (objs w) i = Some (k, a) -> nth_error (objs (exec_all w p)) i = Some (k, a).
Proof. induction p as [|c p IH]; intros w i k a E; [exact E|]. cbn. apply IH. now apply addr_kept. Qed.

Lemma member_fm (ops : list (op T)) r : history ops -> In r (as_ranges (run ops)) -> factory_made r.
Proof. intros H I. destruct (history_state ops H) as (rs & _ & E & _ & W & _). rewrite E in I. apply valid_factory. apply (wf_good _ _ W I). Qed.
Lemma history_app (a b : list (op T)) : history a -> history b -> history (a ++ b).
Proof. intros A B. apply Forall_app. auto. Qed.
Lemma run_snoc (ops : list (op T)) o : run (ops ++ [o]) = fst (step (run ops) o).
Proof. unfold run. now rewrite fold_left_app. Qed.
Lemma add_run (ops : list (op T)) r : history ops -> factory_made r -> add (run ops) r = Ok (run (ops ++ [Add r])).
Proof.
  intros H F. rewrite run_snoc. cbn [step]. destruct (history_state ops H) as (rs & E & _ & _ & W & _). rewrite E. apply valid_factory in F. destruct (add_spec rs r W F) as (rs' & A & _). rewrite A. reflexivity.
Qed.
(** adding ranges one by one is adding them all *)
Lemma adds_run (l : list (range T)) : forall ops, history ops -> Forall factory_made l -> run (ops ++ map Add l) = run (ops ++ [AddAll l]).
Proof.
  intros ops H F. rewrite (run_snoc ops (AddAll l)). cbn [step]. assert (G : forall ops, history ops -> add_all (run ops) l = Ok (run (ops ++ map Add l))); [|now rewrite (G ops H)].
  clear ops H. induction l as [|r l IH]; intros ops H; [cbn; now rewrite app_nil_r|]. inversion F as [|? ? F1 F2]; subst. unfold add_all. cbn [foldM map]. rewrite (add_run ops r H F1). cbn [bind].
  change (r :: l) with ([r] ++ l). replace (ops ++ Add r :: map Add l) with ((ops ++ [Add r]) ++ map Add l) by (rewrite <- app_assoc; reflexivity). apply (IH F2).
  apply history_app; [exact H|]. constructor; [|constructor]. cbn [op_ranges]. auto.
Qed.
Lemma each_run (f : range T -> range T) : (forall r, factory_made r -> factory_made (f r)) -> forall fuel ops i l x, history ops -> add_each fuel f (run ops) i = Some (l, x) ->
  x = Ok (run (ops ++ map Add (map f l))) /\ forall n r, nth_error l n = Some r -> nth_error (as_ranges (run (ops ++ map Add (map f (firstn n l))))) (i + n) = Some r.
Proof.
  intros F. induction fuel as [|fuel IH]; intros ops i l x H E; cbn [add_each] in E.
  - destruct (nth_error (as_ranges (run ops)) i) as [r|]; [discriminate|]. inversion E; subst. cbn [map]. rewrite app_nil_r. split; [reflexivity|]. intros [] r; discriminate.
  - destruct (nth_error (as_ranges (run ops)) i) as [r|] eqn:N; [|inversion E; subst; cbn [map]; rewrite app_nil_r; split; [reflexivity|]; intros [] ?; discriminate].
    assert (Fr : factory_made (f r)) by (apply F; eapply member_fm; [exact H|]; eapply nth_error_In; exact N). rewrite (add_run ops (f r) H Fr) in E.
    assert (H' : history (ops ++ [Add (f r)])) by (apply history_app; [exact H|]; constructor; [|constructor]; cbn [op_ranges]; auto).
    destruct (add_each fuel f (run (ops ++ [Add (f r)])) (S i)) as [[l' x']|] eqn:E'; [|discriminate]. inversion E; subst. destruct (IH _ _ _ _ H' E') as (X & Y). cbn [map]. split.
    + rewrite X, <- app_assoc. reflexivity.
    + intros [|n] q Hn; [cbn in Hn |- *; rewrite app_nil_r, Nat.add_0_r; congruence|]. cbn [nth_error] in Hn. specialize (Y n q Hn). cbn [firstn map]. rewrite <- app_assoc in Y. cbn [app] in Y. replace (i + S n) with (S i + n) by lia. exact Y.
Qed.
Lemma filters_disjoint {A} (p q : A -> bool) (l : list A) (m : A) : (forall x, In x l -> p x = true -> q x = false) -> In m l -> p m = false -> q m = false -> length (filter p l) + length (filter q l) < length l.
Proof.
  induction l as [|x l IH]; intros D I Pm Qm; [destruct I|]. cbn [filter length].
  assert (Le : length (filter p l) + length (filter q l) <= length l).
  { assert (D' : forall y, In y l -> p y = true -> q y = false) by (intros; apply D; [now right|assumption]). clear -D'. induction l as [|x l IH]; [auto|]. cbn [filter length]. assert (IH' := IH (fun y Iy => D' y (or_intror Iy))). specialize (D' x (or_introl eq_refl)). destruct (p x), (q x); cbn [length]; try lia; specialize (D' eq_refl); discriminate. }
  assert (Dx := D x (or_introl eq_refl)). destruct I as [->|I]; [rewrite Pm, Qm; lia|]. specialize (IH (fun y Iy => D y (or_intror Iy)) I Pm Qm). destruct (p x), (q x); cbn [length]; try lia; specialize (Dx eq_refl); discriminate.
Qed.
Lemma widen_length (ops : list (op T)) r q : history ops -> In r (as_ranges (run ops)) -> factory_made q -> encloses q r = true -> length (as_ranges (run (ops ++ [Add q]))) <= length (as_ranges (run ops)).
Proof.
  intros H I F E. assert (A := add_run ops q H F). destruct (history_state ops H) as (rs & Er & Ea & _ & W & _). rewrite Ea in I |- *. rewrite Er in A. apply valid_factory in F. destruct (add_spec rs q W F) as (rs' & A' & _ & R). rewrite A' in A. inversion A as [Hrun].
  rewrite as_ranges_kv. unfold add_result in R. destruct (is_empty q) eqn:Eq; [now subst|]. destruct R as (h & _ & ->). rewrite app_length. cbn [length].
  assert (G : good q) by (apply good_nonempty; auto). assert (Gr := wf_good _ _ W I). destruct G as (_ & G). destruct Gr as (_ & Gr).
  assert (L := filters_disjoint (lbelow q) (labove q) rs r). enough (length (filter (lbelow q) rs) + length (filter (labove q) rs) < length rs) by lia. apply L; [intros x Ix Hx; destruct (wf_good _ _ W Ix) as (_ & Gx)|exact I|..]; unfold lbelow, labove in *; cord.
Qed.
End Proofs.

(** C106: a view taken of a set shows, at any later time, what the set has then; of an immutable set always the same. *)
Theorem C106_view : forall (T : Type) (O : TotalOrder T) (p q : list (cmd T)) (i view : nat),
  take_view (exec_all empty_world p) i = Some view ->
  exists k, observe (exec_all empty_world (p ++ q)) i = Some (k, see (exec_all empty_world (p ++ q)) view) /\
    (k = KImm -> see (exec_all empty_world (p ++ q)) view = see (exec_all empty_world p) view).
Proof.
  intros T O p q i view V. unfold take_view in V. destruct (nth_error (objs (exec_all empty_world p)) i) as [[k a]|] eqn:E; [|discriminate]. exists k.
  assert (a = view) as -> by (destruct k; congruence). assert (O1 : observe (exec_all empty_world p) i = Some (k, see (exec_all empty_world p) view)) by (unfold observe; rewrite E; reflexivity).
  assert (O2 : observe (exec_all empty_world (p ++ q)) i = Some (k, see (exec_all empty_world (p ++ q)) view)). { assert (Ea : exec_all empty_world (p ++ q) = exec_all (exec_all empty_world p) q) by apply fold_left_app. rewrite Ea. unfold observe. rewrite (addr_all q _ i k view E). reflexivity. }
  split; [exact O2|]. intros ->. assert (X := C22_immutable_never_changes T O p q i _ O1). congruence.
Qed.
(** C106: a set added to itself is what it was; the iteration delivers its ranges in order, each once, and ends. *)
Theorem C106_self : forall (T : Type) (O : TotalOrder T) (ops : list (op T)) (fuel : nat), history ops -> length (as_ranges (run ops)) <= fuel ->
  add_all_self fuel (run ops) = Some (as_ranges (run ops), Ok (run ops)).
Proof.
  intros T O ops fuel H L. unfold add_all_self. set (all := as_ranges (run ops)) in *. assert (G : forall fuel pre suf, all = pre ++ suf -> length suf <= fuel -> add_each fuel (fun r => r) (run ops) (length pre) = Some (suf, Ok (run ops))); [|exact (G fuel [] all eq_refl L)].
  clear L fuel. induction fuel as [|fuel IH]; intros pre suf E L.
  - destruct suf; [|simpl in L; lia]. cbn [add_each]. fold all. rewrite E, app_nil_r, (proj2 (nth_error_None pre (length pre))) by lia. reflexivity.
  - cbn [add_each]. fold all. destruct suf as [|r suf]; [rewrite E, app_nil_r, (proj2 (nth_error_None pre (length pre))) by lia; reflexivity|].
    rewrite E at 1. rewrite nth_error_app2, Nat.sub_diag by lia. cbn [nth_error].
    assert (I : In r (as_ranges (run ops))) by (fold all; rewrite E; apply in_or_app; right; now left).
    assert (A : add (run ops) r = Ok (run ops)).
    { assert (X := C14_absorbed T O ops [r] H). unfold add_all in X. cbn [foldM] in X. destruct (add (run ops) r) as [d|e] eqn:Ad; cbn [bind] in X; apply X; intros q [<-|[]]; (split; [eapply member_fm; eassumption|]); right; exists r; (split; [exact I|apply encloses_refl]). }
    rewrite A. specialize (IH (pre ++ [r]) suf). rewrite app_length in IH. cbn [length] in IH. rewrite Nat.add_1_r in IH. rewrite IH; [reflexivity|rewrite <- app_assoc; exact E|simpl in L; lia].
Qed.
(** C106: a loop which adds to the set [f r] for each range [r] its own view delivers: if it ends, the set is as if all these had been added at once, and each
    range was in the set when it was delivered, at the place given by the number of those delivered before. *)
Theorem C106_loop : forall (T : Type) (O : TotalOrder T) (f : range T -> range T) (ops : list (op T)) (fuel : nat) l x,
  (forall r, factory_made r -> factory_made (f r)) -> history ops -> add_each fuel f (run ops) 0 = Some (l, x) ->
  x = Ok (run (ops ++ [AddAll (map f l)])) /\
  (forall n r, nth_error l n = Some r -> nth_error (as_ranges (run (ops ++ [AddAll (map f (firstn n l))]))) n = Some r) /\
  length (as_ranges (run (ops ++ [AddAll (map f l)]))) <= length l.
Proof.
  intros T O f ops fuel l x F H E. destruct (each_run f F fuel ops 0 l x H E) as (X & Y). cbn [Nat.add] in Y.
  assert (Fm : Forall factory_made l). { apply Forall_forall. intros r I. apply In_nth_error in I. destruct I as (n & N). assert (Z := Y n r N). apply nth_error_In in Z.
    revert n r N Z. induction n as [n IHn] using (well_founded_induction Wf_nat.lt_wf). intros r N Z. eapply member_fm; [|exact Z]. apply history_app; [exact H|]. apply Forall_forall. intros o Io. apply in_map_iff in Io. destruct Io as (q & <- & Iq). constructor; [|constructor].
    apply in_map_iff in Iq. destruct Iq as (q' & <- & Iq). apply F. apply In_nth_error in Iq. destruct Iq as (m & Nm). assert (m < n). { assert (m < length (firstn n l)) by (apply nth_error_Some; congruence). rewrite firstn_length in H0. lia. }
    assert (Nl : nth_error l m = Some q') by (rewrite <- (firstn_skipn n l), nth_error_app1; [exact Nm|apply nth_error_Some; congruence]). exact (IHn m H0 q' Nl (nth_error_In _ _ (Y m q' Nl))). }
  assert (Ff : forall k, Forall factory_made (map f (firstn k l))). { intros k. apply Forall_forall. intros q I. apply in_map_iff in I. destruct I as (r & <- & I). apply F. rewrite Forall_forall in Fm. apply Fm. rewrite <- (firstn_skipn k l). apply in_or_app. auto. }
  assert (Fl := Ff (length l)). rewrite firstn_all in Fl. split; [rewrite X, (adds_run _ ops H Fl); reflexivity|]. split.
  - intros n r N. rewrite <- (adds_run _ ops H (Ff n)). auto.
  - rewrite <- (adds_run _ ops H Fl). clear Y Fm Ff Fl.
    assert (G : forall fuel ops i l x, history ops -> add_each fuel f (run ops) i = Some (l, x) -> length (as_ranges (run (ops ++ map Add (map f l)))) <= i + length l); [|exact (G fuel ops 0 l x H E)].
    clear -F. induction fuel as [|fuel IH]; intros ops i l x H E; cbn [add_each] in E.
    + destruct (nth_error (as_ranges (run ops)) i) as [r|] eqn:N; [discriminate|]. inversion E; subst. cbn [map]. rewrite app_nil_r. apply nth_error_None in N. simpl. lia.
    + destruct (nth_error (as_ranges (run ops)) i) as [r|] eqn:N; [|inversion E; subst; cbn [map]; rewrite app_nil_r; apply nth_error_None in N; simpl; lia].
      assert (Fr : factory_made (f r)) by (apply F; eapply member_fm; [exact H|]; eapply nth_error_In; exact N). rewrite (add_run ops (f r) H Fr) in E.
      assert (H' : history (ops ++ [Add (f r)])) by (apply history_app; [exact H|]; constructor; [|constructor]; cbn [op_ranges]; auto).
      destruct (add_each fuel f (run (ops ++ [Add (f r)])) (S i)) as [[l' x']|] eqn:E'; [|discriminate]. inversion E; subst. specialize (IH _ _ _ _ H' E'). rewrite <- app_assoc in IH. cbn [map length app] in IH |- *. lia.
Qed.
(** C106: if each [f r] encloses [r] the loop ends: it delivers no more ranges than there are at the beginning. *)
Theorem C106_ends : forall (T : Type) (O : TotalOrder T) (f : range T -> range T) (ops : list (op T)) (fuel : nat),
  (forall r, factory_made r -> factory_made (f r) /\ encloses (f r) r = true) -> history ops -> length (as_ranges (run ops)) <= fuel ->
  exists l d, add_each fuel f (run ops) 0 = Some (l, Ok d) /\ length l <= length (as_ranges (run ops)).
Proof.
  intros T O f ops fuel F H L. assert (G : forall fuel ops i, history ops -> length (as_ranges (run ops)) <= i + fuel -> exists l d, add_each fuel f (run ops) i = Some (l, Ok d) /\ (l = [] \/ i + length l <= length (as_ranges (run ops)))).
  - clear ops fuel H L. induction fuel as [|fuel IH]; intros ops i H L; cbn [add_each].
    + rewrite (proj2 (nth_error_None _ i)) by lia. eexists [], _. split; [reflexivity|]. now left.
    + destruct (nth_error (as_ranges (run ops)) i) as [r|] eqn:N; [|eexists [], _; split; [reflexivity|now left]]. assert (I := nth_error_In _ _ N). destruct (F r (member_fm ops r H I)) as (Fr & Er). rewrite (add_run ops (f r) H Fr).
      assert (H' : history (ops ++ [Add (f r)])) by (apply history_app; [exact H|]; constructor; [|constructor]; cbn [op_ranges]; auto). assert (Le := widen_length ops r (f r) H I Fr Er).
      destruct (IH (ops ++ [Add (f r)]) (S i) H') as (l & d & E & Ln); [lia|]. rewrite E. eexists (r :: l), d. split; [reflexivity|]. right. cbn [length].
      assert (i < length (as_ranges (run ops))) by (apply nth_error_Some; congruence). destruct Ln as [->|Ln]; simpl; lia.
  - destruct (G fuel ops 0 H) as (l & d & E & Ln); [lia|]. exists l, d. split; [exact E|]. destruct Ln as [->|Ln]; simpl; lia.
Qed.

(** ** Concrete cases *)
Definition live_set : list (op Z) := [AddAll [MkRange (BelowV 0) (AboveV 1); MkRange (BelowV 3) (AboveV 4); MkRange (BelowV 6) (AboveV 7); MkRange (BelowV 9) (AboveV 10)]]%Z.
(** the range around [r] and [0, 1], if [r] is [3, 4] *)
Definition back (r : range Z) : range Z := if range_eq r (MkRange (BelowV 3) (AboveV 4))%Z then MkRange (BelowV 1%Z) (AboveV 4%Z) else r.
Lemma live_history : history live_set.
Proof. constructor; [|constructor]. cbn [op_ranges]. repeat (apply Forall_cons; [apply valid_factory; reflexivity|]). apply Forall_nil. Qed.
(** C106 refuted: such a loop sees every range of the set it began with.  When [3, 4] is widened to [1, 4], [0, 1] and it become one range, the others move one place
    to the left and [6, 7] is never delivered, although it is in the set all the time. *)
Theorem C106_skips_refuted : exists (f : range Z -> range Z) (ops : list (op Z)) l d m, history ops /\ (forall r, factory_made r -> factory_made (f r) /\ encloses (f r) r = true) /\
  add_each 10 f (run ops) 0 = Some (l, Ok d) /\ In m (as_ranges (run ops)) /\ In m (as_ranges d) /\ ~ In m l.
Proof.
  exists back, live_set. eexists _, _, (MkRange (BelowV 6) (AboveV 7))%Z. split; [exact live_history|]. split; [|split; [vm_compute; reflexivity|split; [vm_compute; auto|split; [vm_compute; auto|]]]].
  - intros r V. unfold back. destruct (range_eq r (MkRange (BelowV 3) (AboveV 4))%Z) eqn:E; [|split; [exact V|apply encloses_refl]].
    apply range_eq_iff in E. subst r. split; [apply valid_factory|]; reflexivity.
  - vm_compute. intros [X|[X|[X|[]]]]; discriminate X.
Qed.
(** the range shifted by two *)
Definition shift (r : range Z) : range Z := match r with MkRange (BelowV a) (AboveV b) => MkRange (BelowV (a + 2)) (AboveV (b + 2)) | _ => r end%Z.
Definition point (k : nat) : range Z := MkRange (BelowV (2 * Z.of_nat k)%Z) (AboveV (2 * Z.of_nat k)%Z).
Lemma points_wf n : WF (map point (seq 0 n)).
Proof.
  split.
  - apply Forall_forall. intros r I. apply in_map_iff in I. destruct I as (k & <- & _). split; [apply valid_spec; unfold point, cltb, cut_lt; cbn [lower upper compare_to ltb Z_order]; rewrite Z.ltb_irrefl; auto|]. unfold point, cltb, cut_lt. cbn [lower upper compare_to ltb Z_order]. rewrite Z.ltb_irrefl. reflexivity.
  - generalize 0. induction n as [|n IH]; intros s; cbn [seq map]; constructor; [apply IH|]. apply Forall_forall. intros r I. apply in_map_iff in I. destruct I as (k & <- & I). apply in_seq in I. unfold before, point, cltb, cut_lt. cbn [lower upper compare_to ltb Z_order]. destruct (Z.ltb_spec (2 * Z.of_nat s) (2 * Z.of_nat k)); [reflexivity|lia].
Qed.
Lemma points_add n : add (map kv (map point (seq 0 n))) (point n) = Ok (map kv (map point (seq 0 (S n)))).
Proof.
  assert (W := points_wf n). assert (V : valid (point n)) by (apply (wf_good _ _ (points_wf (S n))); apply in_map, in_seq; lia).
  assert (B : forall x, In x (map point (seq 0 n)) -> cltb (upper x) (lower (point n)) = true).
  { intros x I. apply in_map_iff in I. destruct I as (k & <- & I). apply in_seq in I. unfold point, cltb, cut_lt. cbn [lower upper compare_to ltb Z_order]. destruct (Z.ltb_spec (2 * Z.of_nat k) (2 * Z.of_nat n)); [reflexivity|lia]. }
  destruct (add_spec _ (point n) W V) as (rs' & -> & _ & R). f_equal. f_equal.
  assert (G : good (point n)) by (apply (wf_good _ _ (points_wf (S n))); apply in_map, in_seq; lia). unfold add_result in R. rewrite (proj2 (proj1 (good_nonempty _) G)) in R. destruct R as (h & Hh & ->).
  assert (F : forall l, (forall x, In x l -> In x (map point (seq 0 n))) -> filter (lbelow (point n)) l = l /\ filter (labove (point n)) l = [] /\ filter (is_connected (point n)) l = []).
  { destruct G as (_ & G). induction l as [|x l IH]; intros Hl; [auto|]. destruct IH as (E1 & E2 & E3); [intros; apply Hl; now right|]. assert (Ix := Hl x (or_introl eq_refl)). assert (Bx := B x Ix). destruct (wf_good _ _ W Ix) as (_ & Gx). cbn [filter].
    unfold lbelow at 1. rewrite Bx, E1. assert (labove (point n) x = false) as -> by (unfold labove; generalize dependent (point n); intros; cord). assert (is_connected (point n) x = false) as -> by (generalize dependent (point n); intros; cord). auto. }
  destruct (F _ (fun x I => I)) as (-> & -> & E3). rewrite E3 in Hh. rewrite seq_S, map_app. cbn [map Nat.add]. f_equal. f_equal.
  destruct (create_spanning_spec [point n]) as (c & Ec & _ & C1 & C2); [discriminate|now constructor|]. rewrite Ec in Hh. inversion Hh; subst h. clear Hh Ec.
  apply encloses_antisym; [now apply C1; left|apply C2; intros r [<-|[]]; apply encloses_refl].
Qed.
Lemma shift_point k : shift (point k) = point (S k).
Proof. unfold shift, point. f_equal; f_equal; lia. Qed.
Lemma shift_loop : forall fuel n, add_each fuel shift (map kv (map point (seq 0 (S n)))) n = None.
Proof.
  induction fuel as [|fuel IH]; intros n; cbn [add_each]; rewrite as_ranges_kv; rewrite (map_nth_error point n (seq 0 (S n)) (d := n)) by (rewrite nth_error_nth' with (d := 0); [now rewrite seq_nth by lia|rewrite seq_length; lia]); [reflexivity|].
  rewrite shift_point, points_add, IH. reflexivity.
Qed.
(** C106 refuted: such a loop ends.  With [r] shifted by two added for each [r], the range just added is the next one: the loop has not ended after any number of rounds. *)
Theorem C106_endless_refuted : exists (f : range Z -> range Z) (ops : list (op Z)), history ops /\ (forall r, factory_made r -> factory_made (f r)) /\ forall fuel, add_each fuel f (run ops) 0 = None.
Proof.
  exists shift, [Add (point 0)]. split; [constructor; [|constructor]; constructor; [|constructor]; apply valid_factory; reflexivity|]. split.
  - intros r V. apply valid_factory. apply valid_factory, valid_spec in V. destruct V as (V1 & V2 & V3). destruct r as [[|a|a|] [|b|b|]]; try (now apply valid_spec). apply valid_spec. unfold shift, cltb, cut_lt in *. cbn [lower upper compare_to ltb Z_order] in *. split; [|auto].
    destruct (Z.ltb_spec (b + 2) (a + 2)), (Z.ltb_spec b a); try lia; auto. destruct (Z.ltb_spec (a + 2) (b + 2)), (Z.ltb_spec a b); try lia; auto.
  - intros fuel. exact (shift_loop fuel 0).
Qed.
(** C106 refuted: a view is a copy. *)
Theorem C106_snapshot_refuted : exists (p q : list (cmd Z)) i view, take_view (exec_all empty_world p) i = Some view /\ see (exec_all empty_world (p ++ q)) view <> see (exec_all empty_world p) view.
Proof. exists [NewMutable], [Call 0 (Add (MkRange (BelowV 0) (AboveV 1)))]%Z, 0, 0. split; [reflexivity|]. vm_compute. discriminate. Qed.
Example C106_witness : history live_set /\ add_all_self 4 (run live_set) = Some (as_ranges (run live_set), Ok (run live_set)) /\ length (as_ranges (run live_set)) = 4.
Proof. split; [exact live_history|]. split; vm_compute; reflexivity. Qed.
Example C106_loop_witness : add_each 10 back (run live_set) 0 = Some ([MkRange (BelowV 0) (AboveV 1); MkRange (BelowV 3) (AboveV 4); MkRange (BelowV 9) (AboveV 10)]%Z, Ok (run (live_set ++ [Add (MkRange (BelowV 1%Z) (AboveV 4%Z))]))).
Proof. vm_compute. reflexivity. Qed.
Print Assumptions C106_view. Print Assumptions C106_self. Print Assumptions C106_loop. Print Assumptions C106_ends. Print Assumptions C106_skips_refuted. Print Assumptions C106_endless_refuted. Print Assumptions C106_snapshot_refuted.
