(** Proofs about USSD responses. *)
From Verif Require Import Base RegexModel RegexProofs UtilModel ModemCore ModemSpec WriteProofs SendSpec UssdModel UssdSpec TrieProofs MonadProofs TrackSpec SendProofs.

(** ** The first way of a sequence *)
Definition prepend (t : str) (g : list str) (w : way) : way := let '(t', g', r) := w in (t ++ t', g ++ g', r).
Lemma rm_lit l b s : rm (RLit l ;; b) s = if startswith s l then map (prepend l []) (rm b (skipn (length l) s)) else [].
Proof. cbn [rm]. destruct (startswith s l); cbn [flat_map]; auto. rewrite app_nil_r. auto. Qed.
Lemma flat_map_nil {A B} (f : A -> list B) l : (forall x, In x l -> f x = []) -> flat_map f l = [].
Proof. induction l as [|x l IH]; intro H; cbn; auto. rewrite (H x), IH; auto; [intros; apply H; right; auto|left; auto]. Qed.
(** a greedy repetition that has to take all it can *)
Lemma rm_star_all p b s : (forall c r, p c = true -> rm b (c :: r) = []) ->
  rm (star p ;; b) s = map (prepend (firstn (span p s) s) []) (rm b (skipn (span p s) s)).
Proof.
  intro H. unfold star. cbn [rm]. unfold lengths. cbn [cap]. rewrite Nat.sub_0_r, Nat.add_1_r, seq_S, rev_app_distr. cbn [rev app map flat_map Nat.add].
  rewrite flat_map_nil; [rewrite app_nil_r; auto|].
  intros [[t g] r] I. apply in_map_iff in I as (k & [= <- <- <-] & I). apply in_rev in I. rewrite rev_involutive in I || idtac. apply in_seq in I.
  assert (E : exists c r, skipn k s = c :: r /\ p c = true).
  { clear - I. revert k I. induction s as [|c s IH]; intros k I; cbn in I; [lia|]. destruct (p c) eqn:P; [|lia]. destruct k; [exists c, s; auto|]. apply IH. lia. }
  destruct E as (c & r & -> & P). rewrite H; auto.
Qed.
Lemma span_split p s : Forall (fun c => p c = true) (firstn (span p s) s) /\ starts_outside p (skipn (span p s) s).
Proof.
  split; [apply span_forall; auto|]. induction s as [|c s IH]; cbn; auto. destruct (p c) eqn:E; cbn; auto.
Qed.
Lemma span_exact p a b : Forall (fun c => p c = true) a -> starts_outside p b -> span p (a ++ b) = length a.
Proof. induction 1 as [|c a H F IH]; intro S; cbn; [destruct b; cbn in *; auto; rewrite S; auto|]. rewrite H, IH; auto. Qed.

(** ** The end of an item: quote, comma, digits *)
Definition tail : re := RLit (lit """,") ;; RGrp (plus c_digit).
Lemma tail_stop s : rm tail s <> [] <-> stop s.
Proof.
  unfold tail. rewrite rm_lit. destruct (startswith s (lit """,")) eqn:E.
  - apply startswith_app in E as (r & ->). change (skipn (length (lit """,")) (lit """," ++ r)) with r.
    destruct r as [|d r].
    + cbn. split; [congruence|]. intros (d & r & E & _). discriminate E.
    + cbn [rm]. unfold plus, RegexModel.plus. cbn [rm cap]. destruct (is_digit d) eqn:D.
      * split; [intros _; exists d, r; auto|]. intros _. unfold lengths. cbn [span]. unfold c_digit. rewrite D. 
        replace (S (span is_digit r) + 1 - 1)%nat with (S (span is_digit r)) by lia. rewrite seq_S, rev_app_distr. cbn. discriminate.
      * cbn [span]. unfold c_digit. rewrite D. cbn. split; [congruence|]. intros (d' & r' & [= -> ->] & D'). congruence.
  - split; [congruence|]. intros (d & r & -> & _). discriminate E.
Qed.
Lemma tail_first d ds rest : Forall (fun c => is_digit c = true) (d :: ds) -> starts_outside is_digit rest -> exists l,
  rm tail (34 :: 44 :: (d :: ds) ++ rest) = (34 :: 44 :: d :: ds, [d :: ds], rest) :: l.
Proof.
  intros F SO. unfold tail. rewrite rm_lit. change (startswith (34 :: 44 :: (d :: ds) ++ rest) (lit """,")) with true || idtac.
  destruct (startswith (34 :: 44 :: (d :: ds) ++ rest) (lit """,")) eqn:E; [|cbn in E; discriminate].
  change (skipn (length (lit """,")) (34 :: 44 :: (d :: ds) ++ rest)) with ((d :: ds) ++ rest). 
  destruct (firstn_app_all (d :: ds) rest) as [F1 F2]. pose proof (span_exact is_digit (d :: ds) rest F SO) as SP. remember ((d :: ds) ++ rest) as x eqn:Ex. cbn [rm]. unfold plus. cbn [rm cap].
  unfold c_digit. rewrite SP. unfold lengths. replace (length (d :: ds) + 1 - 1)%nat with (S (length ds)) by (cbn; lia).
  rewrite seq_S, rev_app_distr. change (1 + length ds)%nat with (length (d :: ds)). cbn [rev app map].
  rewrite F1, F2. eexists. reflexivity.
Qed.

(** the shortest text before a stop *)
Lemma flat_map_first {B} (f : nat -> list B) k a n : (forall j, (a <= j < k)%nat -> f j = []) -> (a <= k < a + n)%nat -> exists l, flat_map f (seq a n) = f k ++ l.
Proof.
  revert a. induction n as [|n IH]; intros a Z I; [lia|]. cbn. destruct (Nat.eq_dec a k) as [->|N].
  - eexists. reflexivity.
  - rewrite Z by lia. apply IH; [intros; apply Z; lia|lia].
Qed.
Lemma span_all s : span c_all s = length s. Proof. induction s; cbn; auto. Qed.
Definition body : re := RGrp (lazy_star c_all) ;; tail.
Lemma rm_body s : rm body s = flat_map (fun k => map (prepend (firstn k s) [firstn k s]) (rm tail (skipn k s))) (seq 0 (length s + 1)).
Proof.
  unfold body, lazy_star. cbn [rm]. unfold lengths. rewrite map_map. cbn [cap]. rewrite span_all, Nat.sub_0_r. rewrite flat_map_concat_map, map_map, <- flat_map_concat_map. reflexivity.
Qed.
Lemma body_first text d ds rest : Forall (fun c => is_digit c = true) (d :: ds) -> starts_outside is_digit rest ->
  (forall a b, text ++ 34 :: 44 :: (d :: ds) ++ rest = a ++ b -> stop b -> (length text <= length a)%nat) ->
  exists l, rm body (text ++ 34 :: 44 :: (d :: ds) ++ rest) = (text ++ 34 :: 44 :: d :: ds, [text; d :: ds], rest) :: l.
Proof.
  intros F S M. set (s := text ++ 34 :: 44 :: (d :: ds) ++ rest) in *. rewrite rm_body.
  destruct (flat_map_first (fun k => map (prepend (firstn k s) [firstn k s]) (rm tail (skipn k s))) (length text) 0 (length s + 1)) as (l & E).
  - intros j J. destruct (rm tail (skipn j s)) as [|w l] eqn:E; auto. exfalso.
    assert (T : stop (skipn j s)) by (apply tail_stop; rewrite E; discriminate).
    specialize (M _ _ (eq_sym (firstn_skipn j s)) T). rewrite firstn_length in M. lia.
  - unfold s. rewrite app_length. lia.
  - rewrite E. unfold s. destruct (firstn_app_all text (34 :: 44 :: (d :: ds) ++ rest)) as [-> ->].
    destruct (tail_first d ds rest F S) as (l' & ->). cbn. eexists. reflexivity.
Qed.
Lemma body_any s : rm body s <> [] -> exists text d ds rest, s = text ++ 34 :: 44 :: (d :: ds) ++ rest /\ Forall (fun c => is_digit c = true) (d :: ds) /\
  starts_outside is_digit rest /\ (forall a b, s = a ++ b -> stop b -> (length text <= length a)%nat).
Proof.
  intro H.
  assert (K : exists k, stop (skipn k s) /\ forall j, (j < k)%nat -> ~ stop (skipn j s)).
  { assert (D : forall k, stop (skipn k s) \/ ~ stop (skipn k s)).
    { intro k. rewrite <- tail_stop. destruct (rm tail (skipn k s)); [right; congruence|left; congruence]. }
    assert (E : exists k, stop (skipn k s)).
    { rewrite rm_body in H. destruct (flat_map _ _) as [|w l] eqn:E; [congruence|]. assert (I : In w (w :: l)) by (left; auto). rewrite <- E in I.
      apply in_flat_map in I as (k & _ & I). apply in_map_iff in I as (w' & _ & I). exists k. apply tail_stop. intro N. rewrite N in I. destruct I. }
    destruct E as (k & E). induction k as [k IH] using (well_founded_induction lt_wf).
    assert (X : (exists j, (j < k)%nat /\ stop (skipn j s)) \/ forall j, (j < k)%nat -> ~ stop (skipn j s)).
    { clear - D. induction k as [|k IH]; [right; intros; lia|]. destruct IH as [(j & J & T)|N]; [left; exists j; split; auto|].
      destruct (D k) as [T|T]; [left; exists k; auto|right]. intros j J. destruct (Nat.eq_dec j k) as [->|]; auto. apply N. lia. }
    destruct X as [(j & J & T)|N]; [eauto|eauto]. }
  destruct K as (k & (d & r & E & D) & M).
  pose proof (span_split is_digit r) as [F S]. exists (firstn k s), d, (firstn (span is_digit r) r), (skipn (span is_digit r) r).
  split; [rewrite <- app_comm_cons, firstn_skipn, <- E, firstn_skipn; auto|]. split; [constructor; auto|]. split; auto.
  intros a b E2 T. assert (L : (length (firstn k s) <= k)%nat) by (rewrite firstn_length; lia).
  destruct (Nat.lt_ge_cases (length a) k) as [N|N]; [|lia]. exfalso. apply (M _ N). subst s. rewrite (proj2 (firstn_app_all a b)). auto.
Qed.

(** ** The whole item *)
Lemma digit_first (b : re) c r : is_digit c = false -> rm (RGrp (RCls c_digit) ;; b) (c :: r) = [].
Proof. intro H. cbn. unfold c_digit. rewrite H. auto. Qed.
Definition item_rest : re := RGrp (RCls c_digit) ;; RLit (lit ",""") ;; body.
Lemma cusd_eq s : rm CUSD_REGEX s = if startswith s (lit "+CUSD:") then
  map (prepend (lit "+CUSD:") []) (map (prepend (firstn (span is_space (skipn 6 s)) (skipn 6 s)) []) (rm item_rest (skipn (span is_space (skipn 6 s)) (skipn 6 s)))) else [].
Proof.
  change CUSD_REGEX with (RLit (lit "+CUSD:") ;; (star c_space ;; item_rest)). rewrite rm_lit. destruct (startswith s _); auto. f_equal. rewrite rm_star_all; [reflexivity|].
  intros c r H. apply digit_first. destruct (is_digit c) eqn:D; auto. apply digit_not_space in D. unfold c_space in H. congruence.
Qed.
Lemma rest_eq c r : rm item_rest (c :: 44 :: 34 :: r) = if is_digit c then map (prepend [c; 44; 34] [[c]]) (rm body r) else [].
Proof.
  unfold item_rest. destruct (is_digit c) eqn:D; [|apply digit_first; auto]. 
  cbn [rm flat_map map]. unfold c_digit. rewrite D. cbn [map flat_map]. rewrite app_nil_r.
  change (startswith (44 :: 34 :: r) (lit ",""")) with true || idtac.
  destruct (startswith (44 :: 34 :: r) (lit ",""")) eqn:E; [|destruct r; discriminate E]. cbn [flat_map]. rewrite app_nil_r.
  change (skipn (length (lit ",""")) (44 :: 34 :: r)) with r. rewrite map_map. apply map_ext. intros [[t g] r']. reflexivity.
Qed.
Lemma rest_any s : rm item_rest s <> [] -> exists c r, s = c :: 44 :: 34 :: r /\ is_digit c = true /\ rm body r <> [].
Proof.
  intro H. destruct s as [|c s]; [exfalso; apply H; reflexivity|]. destruct (is_digit c) eqn:D; [|exfalso; apply H; apply digit_first; auto].
  assert (S : startswith s (lit ",""") = true).
  { destruct (startswith s (lit ",""")) eqn:S; auto. exfalso. apply H. unfold item_rest. cbn [rm flat_map map]. unfold c_digit. rewrite D. cbn [map flat_map]. rewrite S. reflexivity. }
  apply startswith_app in S as (r & ->). exists c, r. split; auto. split; auto. change (lit ",""" ++ r) with (44 :: 34 :: r) in H. rewrite rest_eq, D in H.
  intro N. rewrite N in H. apply H. reflexivity.
Qed.
Lemma cusd_match s status text rest : cusd_at s status text rest -> exists t ds, re_match CUSD_REGEX s = Some (t, [[status]; text; ds], rest).
Proof.
  intros (sp & ds & -> & B & D & DS & R & M). unfold re_match. rewrite cusd_eq.
  set (s := sp ++ status :: 44 :: 34 :: text ++ 34 :: 44 :: ds ++ rest).
  assert (startswith (lit "+CUSD:" ++ s) (lit "+CUSD:") = true) as -> by (apply startswith_app; eauto).
  change (skipn 6 (lit "+CUSD:" ++ s)) with s. destruct ds as [|d ds]; [destruct DS; congruence|].
  assert (span is_space s = length sp) as ->. { apply span_exact; auto. cbn. apply digit_not_space. auto. }
  unfold s. destruct (firstn_app_all sp (status :: 44 :: 34 :: text ++ 34 :: 44 :: (d :: ds) ++ rest)) as [-> ->].
  rewrite rest_eq, D. destruct (body_first text d ds rest) as (l & ->); auto; [apply DS|destruct rest as [|x r]; cbn; eauto|].
  cbn. do 2 eexists. reflexivity.
Qed.
Lemma cusd_match_inv s w : re_match CUSD_REGEX s = Some w -> exists status text rest, cusd_at s status text rest.
Proof.
  unfold re_match. rewrite cusd_eq. destruct (startswith s (lit "+CUSD:")) eqn:S; [|discriminate]. apply startswith_app in S as (s' & ->).
  change (skipn 6 (lit "+CUSD:" ++ s')) with s'. set (k := span is_space s'). pose proof (span_split is_space s') as [B _]. fold k in B.
  destruct (rm item_rest (skipn k s')) as [|v l] eqn:E; [discriminate|]. intros _.
  destruct (rest_any (skipn k s')) as (c & r & E2 & D & N); [rewrite E; discriminate|].
  apply body_any in N as (text & d & ds & rest & -> & F & SO & M). exists c, text, rest, (firstn k s'), (d :: ds).
  rewrite <- E2, firstn_skipn. split; auto. split; auto. split; auto. split; [split; [discriminate|auto]|]. split; auto. intros x y ->. auto.
Qed.
Lemma cusd_none s : re_match CUSD_REGEX s = None <-> forall status text rest, ~ cusd_at s status text rest.
Proof.
  split.
  - intros E status text rest H. apply cusd_match in H as (t & ds & H). congruence.
  - intro H. destruct (re_match CUSD_REGEX s) as [w|] eqn:E; auto. apply cusd_match_inv in E as (a & b & c & E). destruct (H _ _ _ E).
Qed.

(** ** All items *)
Definition item_of (w : way) : Z * str := (hd 0 (group 1 w), group 2 w).
Definition item_way (w : way) : Prop := exists c, group 1 w = [c].
Lemma finditer_items fuel s : (length s < fuel)%nat -> cusd_items s (map item_of (finditer_from fuel CUSD_REGEX s)) /\ Forall item_way (finditer_from fuel CUSD_REGEX s).
Proof.
  revert s. induction fuel as [|f IH]; intros s L; [lia|]. cbn [finditer_from]. destruct (re_match CUSD_REGEX s) as [w|] eqn:E.
  - destruct (cusd_match_inv _ _ E) as (status & text & rest & H). destruct (cusd_match _ _ _ _ H) as (t & ds & E2). rewrite E in E2. injection E2 as ->.
    cbn [snd]. assert (L2 : (length rest < f)%nat).
    { destruct H as (sp & ds' & -> & _). rewrite !app_length in L. cbn [length] in L. rewrite !app_length in L. cbn [length] in L. rewrite app_length in L. lia. }
    destruct (IH rest L2) as [I W]. split; [|constructor; auto; exists status; reflexivity]. cbn [map]. unfold item_of at 1. cbn. eapply ci_item; eauto.
  - destruct s as [|c s]; [split; constructor|]. cbn in L. destruct (IH s) as [I W]; [lia|]. split; auto. apply ci_skip; auto. apply cusd_none. auto.
Qed.
Lemma at_fun s a b c a' b' c' : cusd_at s a b c -> cusd_at s a' b' c' -> (a, b, c) = (a', b', c').
Proof. intros H1 H2. apply cusd_match in H1 as (t & ds & E1). apply cusd_match in H2 as (t' & ds' & E2). congruence. Qed.
Lemma at_nonempty a b c : ~ cusd_at [] a b c.
Proof. intros (sp & ds & E & _). discriminate E. Qed.
Lemma items_fun s l : cusd_items s l -> forall l', cusd_items s l' -> l = l'.
Proof.
  induction 1 as [|s status text rest l H I IH|c s l N I IH]; intros l' H'.
  - inversion H'; subst; auto. destruct (at_nonempty _ _ _ H).
  - inversion H'; subst; [destruct (at_nonempty _ _ _ H)| |destruct (H0 _ _ _ H)]. injection (at_fun _ _ _ _ _ _ _ H H0) as -> -> ->. f_equal. auto.
  - inversion H'; subst; [destruct (N _ _ _ H)|auto].
Qed.
Lemma str_eqb_single c d : str_eqb [c] [d] = (c =? d).
Proof. cbn. rewrite andb_true_r. auto. Qed.
Lemma each_spec ms msg act : Forall item_way ms -> 
  (u_active (cusd_each ms msg act) = true <-> act = true /\ all_go_on (map item_of ms)) /\
  (u_message (cusd_each ms msg act) = msg /\ Forall release (map item_of ms) \/ exists a s t b, map item_of ms = a ++ (s, t) :: b /\ s <> 50 /\ Forall release b /\ u_message (cusd_each ms msg act) = Some t).
Proof.
  intro F. revert msg act. induction F as [|w ms (c & G) F IH]; intros msg act; cbn [cusd_each map].
  - unfold all_go_on. cbn. split; [split; [auto|tauto]|left; auto].
  - rewrite G. change (lit "2") with [50]. change (lit "1") with [49]. rewrite !str_eqb_single. assert (EI : item_of w = (c, group 2 w)) by (unfold item_of; rewrite G; auto). rewrite EI. destruct (Z.eqb_spec c 50) as [->|N].
    + destruct (IH msg false) as [A M]. split.
      * rewrite A. unfold all_go_on. split; [intros [? _]; discriminate|]. intros [_ X]. inversion X; subst. discriminate.
      * destruct M as [[M R]|(a & s & t & b & E & M)]; [left; split; auto; constructor; auto; reflexivity|right].
        exists ((50, group 2 w) :: a), s, t, b. rewrite E. auto.
    + set (act' := if act && negb (c =? 49) then false else act). destruct (IH (Some (group 2 w)) act') as [A M]. split.
      * rewrite A. unfold all_go_on. rewrite Forall_cons_iff. cbn [fst]. unfold act'. destruct (Z.eqb_spec c 49) as [->|N2]; destruct act; cbn; intuition congruence.
      * right. destruct M as [[M R]|(a & s & t & b & E & M)].
        -- exists [], c, (group 2 w), (map item_of ms). auto.
        -- exists ((c, group 2 w) :: a), s, t, b. rewrite E. auto.
Qed.
Lemma parse_many l1 l2 ls : exists items, cusd_items (join [13; 10] (l1 :: l2 :: ls)) items /\ cusd_result items (parseCusdResponse (l1 :: l2 :: ls)).
Proof.
  destruct (finditer_items (S (length (join [13; 10] (l1 :: l2 :: ls)))) (join [13; 10] (l1 :: l2 :: ls))) as [I W]; [lia|].
  eexists. split; [exact I|]. unfold parseCusdResponse, finditer. destruct (finditer_from _ _ _) as [|w1 [|w2 ms]]; cbn [map].
  - constructor.
  - inversion W as [|? ? (c & G) ?]; subst. unfold item_of. rewrite G. cbn [hd]. constructor; [reflexivity|]. change (lit "1") with [49]. cbn [u_active]. rewrite str_eqb_single. apply Z.eqb_eq.
  - destruct (each_spec _ None true W) as [A M]. apply cr_several.
    + destruct M as [[M R]|M]; [left; auto|right; auto].
    + fold (map item_of) in A. rewrite A. cbn [map]. tauto.
Qed.
Lemma parse_one l : match parseCusdResponse [l] with
  | Ok u => exists status text rest, cusd_at l status text rest /\ u_message u = Some text /\ (u_active u = true <-> status = 49)
  | Err e => e = AttributeError /\ forall status text rest, ~ cusd_at l status text rest
  end.
Proof.
  unfold parseCusdResponse. destruct (re_match CUSD_REGEX l) as [w|] eqn:E.
  - destruct (cusd_match_inv _ _ E) as (status & text & rest & H). destruct (cusd_match _ _ _ _ H) as (t & ds & E2). rewrite E in E2. injection E2 as ->.
    exists status, text, rest. split; auto. split; auto. change (group 1 (t, [[status]; text; ds], rest)) with [status]. change (lit "1") with [49]. cbn [u_active]. rewrite str_eqb_single. apply Z.eqb_eq.
  - split; auto. apply cusd_none. auto.
Qed.

(** ** Plain notifications *)
Lemma at_plain line i rest : cusd_line line i -> (forall d r, rest = d :: r -> is_digit d = false) -> cusd_at (line ++ rest) (fst i) (snd i) rest.
Proof.
  intros (sp & ds & -> & B & D & N & DS) R. exists sp, ds. split; [repeat (progress (rewrite <- ?app_assoc; cbn [app])); reflexivity|].
  repeat split; auto; try apply DS. intros a b E (d & r & -> & _).
  destruct (Nat.lt_ge_cases (length a) (length (snd i))) as [L|L]; auto. exfalso. apply N.
  assert (X : nth_error (snd i ++ 34 :: 44 :: ds ++ rest) (length a) = Some 34) by (rewrite E, nth_error_app2, Nat.sub_diag by lia; auto).
  rewrite nth_error_app1 in X by auto. eapply nth_error_In; eauto.
Qed.
Lemma join_cons (sep : str) l1 l2 ls : join sep (l1 :: l2 :: ls) = l1 ++ sep ++ join sep (l2 :: ls).
Proof. reflexivity. Qed.
Lemma not_at c s a b r : c <> 43 -> ~ cusd_at (c :: s) a b r.
Proof. intros N (sp & ds & E & _). injection E as E _. auto. Qed.
Lemma items_plain lines items : Forall2 cusd_line lines items -> lines <> [] -> cusd_items (join [13; 10] lines) items.
Proof.
  induction 1 as [|l i ls is H F IH]; intro NE; [congruence|]. destruct i as [s t]. destruct ls as [|l2 ls].
  - inversion F; subst. change (join [13; 10] [l]) with l. rewrite <- (app_nil_r l). eapply ci_item; [apply (at_plain l (s, t) []); auto; discriminate|]. constructor.
  - rewrite join_cons. eapply ci_item; [apply (at_plain l (s, t)); auto; intros d r [= <- _]; reflexivity|].
    cbn [app]. apply ci_skip; [intros; apply not_at; lia|]. apply ci_skip; [intros; apply not_at; lia|]. apply IH. discriminate.
Qed.
Lemma parse_plain l1 l2 ls items : Forall2 cusd_line (l1 :: l2 :: ls) items -> cusd_result items (parseCusdResponse (l1 :: l2 :: ls)).
Proof.
  intro F. destruct (parse_many l1 l2 ls) as (items' & I & R). assert (items = items') as ->; auto.
  eapply items_fun; [|exact I]. apply items_plain; auto. discriminate.
Qed.

(** ** A session *)
Lemma handle_idle w lines : ussdEvent (dev w) = None -> handleUssd lines w = Done (Ok tt) w.
Proof. intro E. unfold handleUssd, mbind, get. rewrite E. auto. Qed.
Lemma handle_waiting w lines b : ussdEvent (dev w) = Some b -> handleUssd lines w =
  match parseCusdResponse lines with
  | Ok u => Done (Ok tt) (mk_world (set_ussdEvent (Some true) (set_ussdResponse (Some u) (dev w))) (script w) (trace w))
  | Err e => Done (Err e) w
  end.
Proof. intro E. unfold handleUssd, mbind, get, lift, modify. rewrite E. destruct (parseCusdResponse lines); auto. Qed.
Lemma notified_spec ns w w' : ussd_notified w ns w' -> forall b, ussdEvent (dev w) = Some b ->
  script w' = script w /\ trace w' = trace w /\
  match last_response ns with
  | Some u => ussdEvent (dev w') = Some true /\ ussdResponse (dev w') = Some u
  | None => ussdEvent (dev w') = Some b /\ ussdResponse (dev w') = ussdResponse (dev w)
  end.
Proof.
  induction 1 as [w|w lines ns x w1 w' H N IH]; intros b E; [cbn; auto|]. rewrite (handle_waiting _ _ _ E) in H. cbn [last_response].
  destruct (parseCusdResponse lines) as [u|e] eqn:P.
  - injection H as <- <-. destruct (IH true eq_refl) as (S & T & R). cbn [script trace dev] in *. split; auto. split; auto.
    destruct (last_response ns); auto.
  - injection H as <- <-. destruct (IH b E) as (S & T & R). split; auto. split; auto. destruct (last_response ns); auto.
Qed.
Lemma start_waits m s sc w : sendUssd_start s (start m sc) = Done (Ok None) w -> ussdEvent (dev w) = Some false /\
  exists ls evs, trace w = evs /\ exchange (ussd_command s) [13] evs (Ok ls) /\ (length ls = 1%nat \/ Forall (fun l => ~ starts_with (lit "+CUSD") l) ls).
Proof.
  intro H. unfold sendUssd_start in H. unfold mbind at 1, modify in H. unfold mbind at 1, try_except in H.
  change (lit "AT+CUSD=1,""" ++ s ++ lit """,15") with (ussd_command s) in H.
  set (w0 := mk_world (set_ussdEvent (Some false) (dev (start m sc))) (script (start m sc)) (trace (start m sc))) in H.
  pose proof (keeps_write ussdEvent (ussd_command s) CR true ltac:(reflexivity) w0) as K. unfold write in H.
  destruct (write_with (ussd_command s) CR true w0) as [[ls|e] w1|w1] eqn:W; [|unfold mbind, modify, raise in H; discriminate|discriminate].
  cbn [last_of] in K. assert (EV : ussdEvent (dev w1) = Some false) by (rewrite K; reflexivity).
  apply exchange_of in W as (evs & T & X). cbn [start trace app] in T.
  assert (LS : ls <> []). { destruct X as (wait & busy & codes & r & _ & _ & _ & O). apply outcome_ok in O as (_ & l0 & l & -> & _). destruct l0; discriminate. }
  assert (Hw : w1 = w /\ (length ls = 1%nat \/ lineStartingWith (lit "+CUSD") ls = None)).
  { destruct ls as [|l1 [|l2 ls]]; [congruence| |].
    - unfold ret in H. injection H as <-. auto.
    - destruct (lineStartingWith (lit "+CUSD") (l1 :: l2 :: ls)) as [l|].
      + unfold mbind, modify, lift, ret in H. destruct (parseCusdResponse (l1 :: l2 :: ls)); discriminate H.
      + unfold ret in H. injection H as <-. auto. }
  destruct Hw as [<- L]. split; auto. exists ls, evs. split; auto. split; auto. destruct L as [L|L]; auto. right.
  pose proof (first_line_iff (lit "+CUSD") ls) as F. rewrite L in F. auto.
Qed.
Lemma session_result m s sc w1 ns w2 x w3 : sendUssd_start s (start m sc) = Done (Ok None) w1 -> ussd_notified w1 ns w2 -> sendUssd_finish w2 = Done x w3 ->
  ussdEvent (dev w3) = None /\ trace w3 = trace w1 /\ x = match last_response ns with Some u => Ok (Some u) | None => Err (TimeoutException None) end.
Proof.
  intros S N F. apply start_waits in S as [E _]. destruct (notified_spec _ _ _ N _ E) as (_ & T & R).
  unfold sendUssd_finish in F. unfold mbind at 1, get in F. destruct (last_response ns) as [u|]; destruct R as [R1 R2]; rewrite R1 in F;
    unfold mbind, modify, ret, raise in F; injection F as <- <-; cbn [dev trace]; rewrite ?R2; auto.
Qed.
Lemma start_answers m s sc x w : sendUssd_start s (start m sc) = Done x w -> x <> Ok None -> ussdEvent (dev w) = None /\ exists y, exchange (ussd_command s) [13] (trace w) y /\
  match y with Err e => x = Err e | Ok ls => (exists l, In l ls /\ starts_with (lit "+CUSD") l) /\ x = match parseCusdResponse ls with Ok u => Ok (Some u) | Err e => Err e end end.
Proof.
  intros H N. unfold sendUssd_start in H. unfold mbind at 1, modify in H. unfold mbind at 1, try_except in H.
  change (lit "AT+CUSD=1,""" ++ s ++ lit """,15") with (ussd_command s) in H.
  set (w0 := mk_world (set_ussdEvent (Some false) (dev (start m sc))) (script (start m sc)) (trace (start m sc))) in H. unfold write in H.
  destruct (write_with (ussd_command s) CR true w0) as [[ls|e] w1|w1] eqn:W; [| |discriminate]; apply exchange_of in W as (evs & T & X); cbn [start trace app] in T.
  - destruct ls as [|l1 [|l2 ls]]; [unfold ret in H; congruence..|]. pose proof (first_line_iff (lit "+CUSD") (l1 :: l2 :: ls)) as F.
    destruct (lineStartingWith (lit "+CUSD") (l1 :: l2 :: ls)) as [l|]; [|unfold ret in H; congruence].
    unfold mbind, modify, lift, ret in H. destruct F as (b & a & E & S & _).
    assert (In l (l1 :: l2 :: ls)) by (rewrite E; apply in_or_app; right; left; auto).
    destruct (parseCusdResponse (l1 :: l2 :: ls)) as [u|e] eqn:P; injection H as <- <-; cbn [dev trace]; rewrite T; (split; [reflexivity|]); exists (Ok (l1 :: l2 :: ls)); rewrite P; eauto 6.
  - unfold mbind, modify, raise in H. injection H as <- <-. cbn [dev trace]. rewrite T. split; [reflexivity|]. exists (Err e). auto.
Qed.
