(** * C98: what ranges, range sets and spans print as *)
From Verif Require Import Prelude PyStr Decimals Order Range RangeFacts RangeProofs RangeProps SortedDict RangeSet RangeSetOps RangeSetProofs RangeSetProofs2 RangeSetProps Misc Span Repr AnnotatedTextProps.

(** ** Texts of endpoints *)
(** Endpoint texts that do not blur the range's own signs: no "..", no final ".", no infinity sign, no comma. *)
Definition clear_text (s : str) : Prop :=
  (forall a b, s <> a ++ !!".." ++ b) /\ (forall a, s <> a ++ !!".") /\ ~ In INF s /\ ~ In 44%N s.

Lemma clear_cons c s : (c <> 46)%N -> (c <> INF)%N -> (c <> 44)%N -> clear_text s -> clear_text (c :: s).
Proof.
  intros N1 N2 N3 (C1 & C2 & C3 & C4). split; [|split; [|split]].
  - intros [|x a] b E; injection E as E1 E2; [now apply N1|]. now apply (C1 a b).
  - intros [|x a] E; injection E as E1 E2; [now apply N1|]. now apply (C2 a).
  - intros [E|I]; auto.
  - intros [E|I]; auto.
Qed.
Lemma clear_digits s : (forall c, In c s -> (c = 45 \/ 48 <= c <= 57)%N) -> clear_text s.
Proof.
  intros H. split; [|split; [|split]].
  - intros a b ->. assert (K := H 46%N). rewrite !in_app_iff in K. simpl in K. destruct K; [auto|discriminate|lia].
  - intros a ->. assert (K := H 46%N). rewrite !in_app_iff in K. simpl in K. destruct K; [auto|discriminate|lia].
  - intros I. apply H in I. unfold INF in I. lia.
  - intros I. apply H in I. lia.
Qed.
Lemma int_str_chars z c : In c (int_str z) -> (c = 45 \/ 48 <= c <= 57)%N.
Proof.
  unfold int_str. destruct (z <? 0)%Z; [intros [<-|I]; [now left|]|intros I]; right; now apply (decimal_digits _ _ I).
Qed.
Lemma int_str_inj z z' : int_str z = int_str z' -> z = z'.
Proof.
  assert (M : forall n, exists c r, decimal n = c :: r /\ (48 <= c)%N).
  { intros n. assert (D := decimal_digits n). assert (N := decimal_nonempty n). destruct (decimal n) as [|c r]; [congruence|]. exists c, r. split; [reflexivity|]. apply D. now left. }
  unfold int_str. destruct (Z.ltb_spec z 0), (Z.ltb_spec z' 0); intros E.
  - injection E as E. apply decimal_inj in E. lia.
  - destruct (M (Z.to_N z')) as (c & r & F & G). rewrite F in E. injection E as E _. lia.
  - destruct (M (Z.to_N z)) as (c & r & F & G). rewrite F in E. injection E as E _. lia.
  - apply decimal_inj in E. lia.
Qed.

(** ** C98: the texts *)
(** A range prints as its lower bound, "..", its upper bound: square brackets for closed ends, round ones for open ends, infinity signs for missing ends. *)
Theorem C98_text : forall (T : Type) (O : TotalOrder T) (fmt : T -> res str) (a b : T) (s t : str) (r : range T), fmt a = Ok s -> fmt b = Ok t ->
  (closed a b = Ok r -> range_repr fmt r = Ok (!!"[" ++ s ++ !!".." ++ t ++ !!"]")) /\
  (open_ a b = Ok r -> range_repr fmt r = Ok (!!"(" ++ s ++ !!".." ++ t ++ !!")")) /\
  (closed_open a b = Ok r -> range_repr fmt r = Ok (!!"[" ++ s ++ !!".." ++ t ++ !!")")) /\
  (open_closed a b = Ok r -> range_repr fmt r = Ok (!!"(" ++ s ++ !!".." ++ t ++ !!"]")) /\
  (at_least a = Ok r -> range_repr fmt r = Ok (!!"[" ++ s ++ !!"..+" ++ [8734%N] ++ !!")")) /\
  (greater_than a = Ok r -> range_repr fmt r = Ok (!!"(" ++ s ++ !!"..+" ++ [8734%N] ++ !!")")) /\
  (at_most b = Ok r -> range_repr fmt r = Ok (!!"(-" ++ [8734%N] ++ !!".." ++ t ++ !!"]")) /\
  (less_than b = Ok r -> range_repr fmt r = Ok (!!"(-" ++ [8734%N] ++ !!".." ++ t ++ !!")")) /\
  (all_ = Ok r -> range_repr fmt r = Ok (!!"(-" ++ [8734%N] ++ !!"..+" ++ [8734%N] ++ !!")")).
Proof.
  intros T O fmt a b s t r Fa Fb. repeat match goal with |- _ /\ _ => split end; intros H; apply mk_range_ok in H; destruct H as [-> _]; unfold range_repr; cbn [lower upper describe_lower describe_upper]; rewrite ?Fa, ?Fb; cbn [bind]; f_equal; rewrite <- ?app_assoc; reflexivity.
Qed.
Section Injective.
Context {T : Type} {O : TotalOrder T}.
Variable fmt : T -> res str.
Variable show : T -> str.
Hypothesis fmt_show : forall x, fmt x = Ok (show x).
Hypothesis show_clear : forall x, clear_text (show x).
Hypothesis show_inj : forall x y, show x = show y -> x = y.

Definition lo (c : cut T) : str := match c with BelowAll | AboveAll => !!"(-" ++ [INF] | BelowV x => !!"[" ++ show x | AboveV x => !!"(" ++ show x end.
Definition up (c : cut T) : str := match c with BelowAll | AboveAll => !!"+" ++ [INF] ++ !!")" | BelowV x => show x ++ !!")" | AboveV x => show x ++ !!"]" end.
Lemma repr_parts (r : range T) : lower r <> AboveAll -> upper r <> BelowAll -> range_repr fmt r = Ok (lo (lower r) ++ !!".." ++ up (upper r)).
Proof using fmt_show.
  intros L U. unfold range_repr. destruct (lower r); try congruence; destruct (upper r); try congruence; cbn [describe_lower describe_upper lo up]; rewrite ?fmt_show; reflexivity.
Qed.
Lemma lo_clear c : (forall a b, lo c <> a ++ !!".." ++ b) /\ (forall a, lo c <> a ++ !!".") .
Proof using show_clear.
  destruct c as [|x|x|]; cbn [lo].
  - split; [intros [|? [|? [|? [|? a]]]] b E; discriminate E|intros [|? [|? [|? [|? a]]]] E; discriminate E].
  - destruct (clear_cons 91 (show x)) as (A & B & _); [discriminate|discriminate|discriminate|apply show_clear|]. exact (conj A B).
  - destruct (clear_cons 40 (show x)) as (A & B & _); [discriminate|discriminate|discriminate|apply show_clear|]. exact (conj A B).
  - split; [intros [|? [|? [|? [|? a]]]] b E; discriminate E|intros [|? [|? [|? [|? a]]]] E; discriminate E].
Qed.
Lemma lo_inj c c' : c <> AboveAll -> c' <> AboveAll -> lo c = lo c' -> c = c'.
Proof using show_clear show_inj.
  intros N N' E. assert (X : forall x, show x = !!"-" ++ [INF] -> False). { intros x F. destruct (show_clear x) as (_ & _ & I & _). apply I. rewrite F. cbn. auto. }
  destruct c as [|x|x|], c' as [|y|y|]; try congruence; cbn [lo] in E; cbn [app] in E; try discriminate E; injection E as E.
  - symmetry in E. destruct (X _ E).
  - now rewrite (show_inj _ _ E).
  - destruct (X _ E).
  - now rewrite (show_inj _ _ E).
Qed.
Lemma up_inj c c' : c <> BelowAll -> c' <> BelowAll -> up c = up c' -> c = c'.
Proof using show_clear show_inj.
  intros N N' E. assert (X : forall x, show x = !!"+" ++ [INF] -> False). { intros x F. destruct (show_clear x) as (_ & _ & I & _). apply I. rewrite F. cbn. auto. }
  destruct c as [|x|x|], c' as [|y|y|]; try congruence; cbn [up] in E; rewrite ?app_assoc in E; apply app_inj_tail in E; destruct E as (E & F); try discriminate F; try reflexivity.
  - now rewrite (show_inj _ _ E).
  - destruct (X _ E).
  - now rewrite (show_inj _ _ E).
  - symmetry in E. destruct (X _ E).
Qed.
Lemma split_dots a a' b b' : (forall x y, a <> x ++ !!".." ++ y) -> (forall x, a <> x ++ !!".") -> (forall x y, a' <> x ++ !!".." ++ y) -> (forall x, a' <> x ++ !!".") -> a ++ !!".." ++ b = a' ++ !!".." ++ b' -> a = a' /\ b = b'.
Proof.
  clear. assert (G : forall x x' y y' : str, (forall p q, x' <> p ++ !!".." ++ q) -> (forall p, x' <> p ++ !!".") -> forall l, x' = x ++ l -> !!".." ++ y = l ++ !!".." ++ y' -> l = []).
  { intros x x' y y' C1 C2 l E F. destruct l as [|c [|d l]]; [reflexivity| |]; exfalso.
    - cbn [app] in F. injection F as <- _. apply (C2 x). rewrite E. reflexivity.
    - cbn [app] in F. injection F as <- <- _. apply (C1 x l). rewrite E. reflexivity. }
  intros A1 A2 B1 B2 E. apply app_eq_app in E. destruct E as (l & [(E1 & E2)|(E1 & E2)]).
  - assert (l = []) as -> by (eapply (G a' a); [exact A1|exact A2|exact E1|exact E2]). rewrite app_nil_r in E1. cbn [app] in E2. injection E2 as E2. auto.
  - assert (l = []) as -> by (eapply (G a a'); [exact B1|exact B2|exact E1|exact E2]). rewrite app_nil_r in E1. cbn [app] in E2. injection E2 as E2. auto.
Qed.
Lemma valid_bounds (r : range T) : valid r -> lower r <> AboveAll /\ upper r <> BelowAll.
Proof. intros V. apply valid_spec in V. destruct V as (_ & A & B). split; intros E; rewrite E in *; discriminate. Qed.
Lemma repr_inj (r r' : range T) : valid r -> valid r' -> range_repr fmt r = range_repr fmt r' -> r = r'.
Proof using fmt_show show_clear show_inj.
  intros V V' E. destruct (valid_bounds r V) as (L & U), (valid_bounds r' V') as (L' & U'). rewrite !repr_parts in E by assumption. injection E as E.
  apply split_dots in E; try apply lo_clear. destruct E as (El & Eu). destruct r as [l u], r' as [l' u']; cbn [lower upper] in *. now rewrite (lo_inj _ _ L L' El), (up_inj _ _ U U' Eu).
Qed.
End Injective.

(** Different ranges print differently, when the endpoints do and their texts are clear. *)
Theorem C98_ranges_differ : forall (T : Type) (O : TotalOrder T) (fmt : T -> res str) (show : T -> str), (forall x, fmt x = Ok (show x)) -> (forall x, clear_text (show x)) -> (forall x y, show x = show y -> x = y) ->
  forall r r', factory_made r -> factory_made r' -> (range_repr fmt r = range_repr fmt r' <-> r = r') /\ (exists s, range_repr fmt r = Ok s).
Proof.
  intros T O fmt show F C I r r' M M'. apply valid_factory in M, M'. split; [split; [now apply (repr_inj fmt show)|congruence]|]. destruct (valid_bounds r M). eexists. now apply (repr_parts fmt show).
Qed.
Definition int_fmt (z : Z) : res str := percent_s (inl (int_str z)).
(** Integer ranges print differently unless they are equal. *)
Theorem C98_integer_ranges : forall r r' : range Z, factory_made r -> factory_made r' -> (range_repr int_fmt r = range_repr int_fmt r' <-> r = r') /\ (exists s, range_repr int_fmt r = Ok s).
Proof. apply (C98_ranges_differ Z Z_order int_fmt int_str); [reflexivity|intros x; apply clear_digits; apply int_str_chars|exact int_str_inj]. Qed.
(** ** Sets *)
Lemma join_inj (l : list str) : forall l', (forall s, In s l -> ~ In 44%N s /\ s <> []) -> (forall s, In s l' -> ~ In 44%N s /\ s <> []) -> py_join !!", " l = py_join !!", " l' -> l = l'.
Proof.
  assert (NE : forall (x : str) m, x <> [] -> py_join !!", " (x :: m) <> []). { intros x m N. destruct m; [exact N|]. destruct x; [congruence|discriminate]. }
  assert (Cut : forall x x' y y' : str, ~ In 44%N x -> ~ In 44%N x' -> x ++ !!", " ++ y = x' ++ !!", " ++ y' -> x = x' /\ y = y').
  { intros x x' y y' A B E. apply app_eq_app in E. destruct E as (k & [(E1 & E2)|(E1 & E2)]); (destruct k as [|c k]; [rewrite app_nil_r in E1; cbn [app] in E2; injection E2 as E2; auto|cbn [app] in E2; injection E2 as <- _; exfalso; subst]).
    - apply A. apply in_or_app. right. now left.
    - apply B. apply in_or_app. right. now left. }
  assert (One : forall x y (m : list str), ~ In 44%N x -> x = y ++ !!", " ++ py_join !!", " m -> False). { intros x y m N E. apply N. rewrite E. apply in_or_app. right. now left. }
  induction l as [|x l IH]; intros [|x' l'] H H' E; [reflexivity|symmetry in E; destruct (NE x' l' (proj2 (H' _ (or_introl eq_refl))) E)|destruct (NE x l (proj2 (H _ (or_introl eq_refl))) E)|].
  destruct (H x (or_introl eq_refl)) as (Nx & _), (H' x' (or_introl eq_refl)) as (Nx' & _).
  destruct l as [|z l], l' as [|z' l'].
  - cbn [py_join] in E. now subst.
  - exfalso. exact (One x x' (z' :: l') Nx E).
  - exfalso. symmetry in E. exact (One x' x (z :: l) Nx' E).
  - apply (Cut x x' (py_join !!", " (z :: l)) (py_join !!", " (z' :: l')) Nx Nx') in E. destruct E as (<- & E). f_equal. apply IH; [intros s I; apply H; now right|intros s I; apply H'; now right|exact E].
Qed.
Lemma mapM_ok {A B} (f : A -> res B) (g : A -> B) l : (forall x, In x l -> f x = Ok (g x)) -> mapM f l = Ok (map g l).
Proof. induction l as [|x l IH]; intros H; [reflexivity|]. cbn [mapM map]. rewrite (H x (or_introl eq_refl)). cbn [bind]. rewrite IH; [reflexivity|]. intros y I. apply H. now right. Qed.
(** Range sets, whatever was done to them, print the same text exactly when they are equal; it is the bracketed list of the texts of their ranges in order. *)
Theorem C98_sets : forall (T : Type) (O : TotalOrder T) (fmt : T -> res str) (show : T -> str), (forall x, fmt x = Ok (show x)) -> (forall x, clear_text (show x)) -> (forall x y, show x = show y -> x = y) ->
  forall ops ops', history ops -> history ops' ->
  (set_repr fmt (run ops) = set_repr fmt (run ops') <-> rs_eq (run ops) (run ops') = true) /\
  (exists l, mapM (range_repr fmt) (as_ranges (run ops)) = Ok l /\ set_repr fmt (run ops) = Ok (!!"[" ++ py_join !!", " l ++ !!"]")).
Proof.
  intros T O fmt show F C I ops ops' H H'. set (g := fun r : range T => lo show (lower r) ++ !!".." ++ up show (upper r)).
  assert (V : forall ops, history ops -> forall r, In r (as_ranges (run ops)) -> valid r).
  { intros o Ho r Ir. destruct (history_state o Ho) as (rs & E & _ & _ & W & _). rewrite E in Ir. unfold as_ranges, sd_values in Ir. rewrite map_map in Ir. cbn in Ir. rewrite map_id in Ir. exact (proj1 (wf_good _ _ W Ir)). }
  assert (M : forall ops, history ops -> mapM (range_repr fmt) (as_ranges (run ops)) = Ok (map g (as_ranges (run ops)))).
  { intros o Ho. apply mapM_ok. intros r Ir. destruct (valid_bounds r (V o Ho r Ir)). now apply (repr_parts fmt show). }
  split; [|exists (map g (as_ranges (run ops))); unfold set_repr; rewrite (M ops H); split; [reflexivity|]; cbn [bind]; unfold str_list; now rewrite map_id].
  rewrite (C13_equality T O ops ops' H H'). unfold set_repr. rewrite (M ops H), (M ops' H'). cbn [bind]. unfold str_list. rewrite !map_id. split; [|intros ->; reflexivity].
  intros E. injection E as E. apply app_inj_tail in E. destruct E as (E & _).
  assert (P : forall ops, history ops -> forall s, In s (map g (as_ranges (run ops))) -> ~ In 44%N s /\ s <> []).
  { intros o Ho s Is. apply in_map_iff in Is. destruct Is as (r & <- & Ir). split; [|unfold g; destruct (lower r); discriminate]. unfold g. rewrite !in_app_iff. 
    assert (A : forall x, ~ In 44%N (show x)) by (intros x; exact (proj2 (proj2 (proj2 (C x))))).
    intros [K|[K|K]]; [destruct (lower r) as [|x|x|]|simpl in K; intuition discriminate|destruct (upper r) as [|x|x|]]; cbn [lo up] in K; rewrite ?in_app_iff in K; cbn in K; unfold INF in K; specialize (A x) || idtac; intuition discriminate. }
  apply join_inj in E; [|now apply P|now apply P].
  assert (Q : forall l l', (forall r, In r l -> valid r) -> (forall r, In r l' -> valid r) -> map g l = map g l' -> l = l').
  { induction l as [|r l IH]; intros [|r' l'] Vl Vl' Em; try discriminate; [reflexivity|]. cbn [map] in Em. injection Em as E1 E2.
    assert (r = r') as <-. { assert (Vr := Vl r (or_introl eq_refl)). assert (Vr' := Vl' r' (or_introl eq_refl)). apply (repr_inj fmt show F C I); [assumption|assumption|]. destruct (valid_bounds r Vr), (valid_bounds r' Vr'). rewrite !(repr_parts fmt show F) by assumption. f_equal. exact E1. }
    f_equal. apply IH; [intros q J; apply Vl; now right|intros q J; apply Vl'; now right|exact E2]. }
  apply Q; [now apply V|now apply V|exact E].
Qed.
(** Spans print their offsets, and differently unless they are equal. *)
Theorem C98_spans : forall a b s, mk_span a b = Ok s -> span_repr s = !!"[" ++ int_str a ++ !!":" ++ int_str b ++ !!")" /\ (forall a' b' s', mk_span a' b' = Ok s' -> (span_repr s = span_repr s' <-> a = a' /\ b = b')).
Proof.
  intros a b s E. assert (Q : forall a b s, mk_span a b = Ok s -> s = MkSpan a b) by (intros x y t Et; unfold mk_span in Et; destruct (x <? y)%Z; congruence). rewrite (Q _ _ _ E). split; [reflexivity|]. intros a' b' s' E'. rewrite (Q _ _ _ E'). unfold span_repr. cbn [start end_].
  split; [|intros (-> & ->); reflexivity]. intros H. injection H as H. 
  assert (N : forall z, ~ In 58%N (int_str z)) by (intros z I; apply int_str_chars in I; lia).
  apply app_eq_app in H. destruct H as (l & [(H1 & H2)|(H1 & H2)]); (destruct l as [|c l]; [|exfalso; cbn [app] in H2; injection H2 as <- _]).
  - rewrite app_nil_r in H1. cbn [app] in H2. injection H2 as H2. apply app_inj_tail in H2. split; [now apply int_str_inj|]. symmetry. apply int_str_inj. tauto.
  - apply (N a). rewrite H1. apply in_or_app. right. now left.
  - rewrite app_nil_r in H1. cbn [app] in H2. injection H2 as H2. apply app_inj_tail in H2. split; [symmetry; now apply int_str_inj|]. apply int_str_inj. tauto.
  - apply (N a'). rewrite H1. apply in_or_app. right. now left.
Qed.
(** The text of an integer: its decimal digits, after a minus sign if it is negative. *)
Theorem C98_integers : forall z, exists n, digits_value (map (fun c => c - 48)%N (decimal n)) = n /\ (z = Z.of_N n /\ int_str z = decimal n \/ z = (- Z.of_N n)%Z /\ (0 < n)%N /\ int_str z = !!"-" ++ decimal n).
Proof.
  intros z. unfold int_str. destruct (Z.ltb_spec z 0).
  - exists (Z.to_N (- z)). split; [apply decimal_value|]. right. split; [lia|]. split; [lia|reflexivity].
  - exists (Z.to_N z). split; [apply decimal_value|]. left. split; [lia|reflexivity].
Qed.
(** ** The constructor's message *)
(** The constructor as modelled in Range.v, for endpoints that can be formatted. *)
Theorem C98_constructor : forall (T : Type) (O : TotalOrder T) (fmt : T -> res str), (forall x, exists s, fmt x = Ok s) -> forall lb ub, construct fmt lb ub = mk_range lb ub.
Proof.
  intros T O fmt F lb ub. unfold construct, mk_range. destruct (cut_le lb ub) eqn:L; cbn [negb]; [reflexivity|]. unfold range_repr. cbn [lower upper].
  destruct lb as [|x|x|], ub as [|y|y|]; cbn [describe_lower describe_upper is_above_all is_below_all orb bind]; try reflexivity; try discriminate L;
  try (destruct (F x) as (s & ->)); try (destruct (F y) as (t & ->)); cbn [bind]; reflexivity.
Qed.
(** C98 refuted: a factory refuses ends in the wrong order with a ValueError.  If the ends are tuples - of any length but one - the message
    cannot be formatted and it is a TypeError; nor can such a range, once made, be printed. *)
Theorem C98_tuples_refuted : forall (T : Type) (O : TotalOrder T) (items : T -> list str) (a b : T), (forall x, length (items x) <> 1) -> let fmt := fun x => percent_s (inr (items x)) in
  (ltb b a = true -> construct fmt (BelowV a) (AboveV b) = Raise TypeError /\ construct fmt (BelowV a) (BelowV b) = Raise TypeError /\ construct fmt (AboveV a) (AboveV b) = Raise TypeError /\ construct fmt (AboveV a) (BelowV b) = Raise TypeError) /\
  (ltb b a = false -> exists r, construct fmt (BelowV a) (AboveV b) = Ok r /\ closed a b = Ok r /\ range_repr fmt r = Raise TypeError).
Proof.
  intros T O items a b L fmt. assert (F : forall x, fmt x = Raise TypeError). { intros x. unfold fmt, percent_s. specialize (L x). destruct (items x) as [|? [|? l]]; try reflexivity. exfalso. now apply L. }
  split.
  - intros H. assert (H' : ltb a b = false) by (destruct (ltb a b) eqn:E; [|reflexivity]; assert (K := ltb_trans _ _ _ H E); rewrite ltb_irrefl in K; discriminate).
    unfold construct, range_repr. cbn [cut_le compare_to lower upper describe_lower]. unfold cut_le. cbn [compare_to]. rewrite H, H', F. repeat split; reflexivity.
  - intros H. assert (Le : cut_le (BelowV a) (AboveV b) = true). { unfold cut_le. cbn [compare_to]. rewrite H. destruct (ltb a b); reflexivity. }
    exists (MkRange (BelowV a) (AboveV b)). unfold construct, closed, mk_range, range_repr. rewrite Le. cbn [negb is_above_all is_below_all lower upper describe_lower]. rewrite F. repeat split; reflexivity.
Qed.
(** C98 refuted: different ranges of any endpoints print differently.  Text with ".." in it can be read in two ways. *)
Theorem C98_strings_refuted : forall (T : Type) (O : TotalOrder T) (show : T -> str) (a b c d : T), show a = !!"a" -> show b = !!"b..c" -> show c = !!"a..b" -> show d = !!"c" ->
  forall r r', closed a b = Ok r -> closed c d = Ok r' -> a <> c /\ r <> r' /\ range_repr (fun x => percent_s (inl (show x))) r = range_repr (fun x => percent_s (inl (show x))) r'.
Proof.
  intros T O show a b c d Sa Sb Sc Sd r r' E E'. apply mk_range_ok in E, E'. destruct E as (-> & _), E' as (-> & _). assert (N : a <> c) by (intros ->; rewrite Sa in Sc; discriminate). split; [assumption|]. split; [congruence|].
  unfold range_repr. cbn [lower upper describe_lower describe_upper percent_s bind]. rewrite Sa, Sb, Sc, Sd. reflexivity.
Qed.
(** ** Concrete cases *)
Example C98_text_witness : exists r r', closed (-5)%Z 12%Z = Ok r /\ range_repr int_fmt r = Ok !!"[-5..12]" /\ greater_than 100%Z = Ok r' /\ range_repr int_fmt r' = Ok (!!"(100..+" ++ [8734%N] ++ !!")").
Proof. eexists _, _. repeat split. Qed.
Example C98_integer_ranges_hypotheses : exists r r' : range Z, factory_made r /\ factory_made r' /\ r <> r' /\ range_repr int_fmt r = Ok !!"[1..12]" /\ range_repr int_fmt r' = Ok !!"[1..12)".
Proof.
  exists (MkRange (BelowV 1%Z) (AboveV 12%Z)), (MkRange (BelowV 1%Z) (BelowV 12%Z)). split; [apply (valid_factory _); reflexivity|]. split; [apply (valid_factory _); reflexivity|]. split; [discriminate|]. split; reflexivity.
Qed.
Example C98_sets_witness : history demo /\ set_repr int_fmt (run demo) = Ok (!!"[(0..4), (6..9), [20..+" ++ [8734%N] ++ !!")]") /\ set_repr int_fmt (run (T := Z) []) = Ok !!"[]" /\ (forall x, clear_text (int_str x)).
Proof. split; [exact demo_history|]. split; [vm_compute; reflexivity|]. split; [reflexivity|]. intros x. apply clear_digits, int_str_chars. Qed.
Example C98_spans_witness : exists s, mk_span 3 17 = Ok s /\ span_repr s = !!"[3:17)".
Proof. eexists. split; reflexivity. Qed.
(** Pairs of integers in the order of Python's tuples. *)
Definition pair_order : TotalOrder (Z * Z).
Proof.
  refine {| ltb := fun a b => ((fst a <? fst b) || (fst a =? fst b) && (snd a <? snd b))%Z; eqb := fun a b => ((fst a =? fst b) && (snd a =? snd b))%Z |}.
  - intros [a b] [c d]; cbn [fst snd]. split; [intros H; f_equal; lia|intros E; injection E as -> ->; lia].
  - intros [a b]; cbn [fst snd]; lia.
  - intros [a b] [c d] [e f]; cbn [fst snd]; lia.
  - intros [a b] [c d]; cbn [fst snd]; intros; f_equal; lia.
Defined.
Example C98_tuples_hypotheses : let items := fun p : Z * Z => [int_str (fst p); int_str (snd p)] in (forall x, length (items x) <> 1) /\ ltb (TotalOrder := pair_order) (1, 5)%Z (2, 0)%Z = true /\
  percent_s (inr [!!"x"]) = Ok !!"x" /\ mk_range (O := pair_order) (BelowV (2, 0)%Z) (AboveV (1, 5)%Z) = Raise ValueError.
Proof. split; [discriminate|]. split; [reflexivity|]. split; reflexivity. Qed.
(** Strings in the order of Python's str. *)
Definition str_order : TotalOrder str := {| ltb := str_ltb; eqb := str_eqb; eqb_eq := str_eqb_eq; ltb_irrefl := str_ltb_irrefl; ltb_trans := str_ltb_trans; ltb_total := str_ltb_total |}.
Example C98_strings_hypotheses : exists r r', closed (O := str_order) !!"a" !!"b..c" = Ok r /\ closed (O := str_order) !!"a..b" !!"c" = Ok r' /\ range_repr (fun x => percent_s (inl x)) r = Ok !!"[a..b..c]".
Proof. eexists _, _. repeat split. Qed.
Print Assumptions C98_text. Print Assumptions C98_ranges_differ. Print Assumptions C98_integer_ranges. Print Assumptions C98_sets. Print Assumptions C98_spans. Print Assumptions C98_integers. Print Assumptions C98_constructor. Print Assumptions C98_tuples_refuted. Print Assumptions C98_strings_refuted.
