From Verif Require Import Base RegexModel ModemCore TrackSpec CoverageSpec SetupSpec CallModel CallSpec ConnectModel FeatureProofs SetupFinal DtmfProofs ModemSpec TwinSpec TwinProofs.

Lemma deed_ignores k A c : deed_of k A c -> k <> Toning -> ignores c.
Proof. intros [A' c' U|pin|n s] N; [apply plain_ignores, plain_usual, U|apply ignores_connect|congruence]. Qed.
Lemma deed_leaves k A c : deed_of k A c -> k <> Connecting -> leaves c.
Proof. intros [A' c' U|pin|n s] N; [apply plain_leaves, plain_usual, U|congruence|apply leaves_tone]. Qed.
Lemma deed_grows k A c : deed_of k A c -> grows c.
Proof. intros [A' c' U|pin|n s]; [apply plain_grows, plain_usual, U|apply grows_connect|apply leaves_grows, leaves_tone]. Qed.
Lemma put_same f i m : put f i m i = m. Proof. unfold put. rewrite Nat.eqb_refl. reflexivity. Qed.
Lemma put_other f i j m : j <> i -> put f i m j = f j.
Proof. intro N. unfold put. destruct (Nat.eqb_spec j i); [congruence|reflexivity]. Qed.

(** a modem that sends no tones *)
Lemma apart_silent p ds q : history p ds q -> forall i p', (forall e, In e ds -> who e = i -> sort_of e <> Toning) -> (forall t, wear t (own p' i) = wear t (own p i)) ->
  exists q', history p' (only i ds) q' /\ forall t, wear t (own q' i) = wear t (own q i).
Proof.
  induction 1 as [p|p j k A c sc x w ds q D E H IH]; intros i p' S W.
  - exists p'. split; [constructor|exact W].
  - unfold only. cbn [filter who]. destruct (Nat.eqb_spec j i) as [->|N].
    + assert (I : ignores c) by (eapply deed_ignores; [exact D|apply (S (Did i k A c sc x (trace w))); [left; reflexivity|reflexivity]]).
      assert (Q : eqw (start (wear (shared p) (own p i)) sc) (start (wear (shared p') (own p' i)) sc)).
      { split; [reflexivity|]. split; [reflexivity|]. intro t. cbn [dev start]. rewrite !wear_wear, W. reflexivity. }
      apply I in Q. rewrite E in Q. destruct (c (start (wear (shared p') (own p' i)) sc)) as [x' w'|w'] eqn:E'; cbn [eqo] in Q; [|tauto].
      destruct Q as [<- (S1 & T1 & W1)].
      destruct (IH i (mk_process (put (own p') i (dev w')) (tones_of (dev w')))) as (q' & H' & W').
      * intros e J. apply S. right. exact J.
      * intro t. cbn [own]. rewrite !put_same. symmetry. apply W1.
      * exists q'. split; [|exact W']. rewrite T1. econstructor; [exact D|exact E'|exact H'].
    + apply IH; [intros e J; apply S; right; exact J|]. intro t. cbn [own]. rewrite put_other; auto.
Qed.
(** a modem beside which no other is connected *)
Lemma apart_alone p ds q : history p ds q -> forall i p', (forall e, In e ds -> who e <> i -> sort_of e <> Connecting) ->
  (forall t, wear t (own p' i) = wear t (own p i)) -> shared p' = shared p ->
  exists q', history p' (only i ds) q' /\ (forall t, wear t (own q' i) = wear t (own q i)) /\ shared q' = shared q.
Proof.
  induction 1 as [p|p j k A c sc x w ds q D E H IH]; intros i p' S W Sh.
  - exists p'. split; [constructor|auto].
  - unfold only. cbn [filter who]. destruct (Nat.eqb_spec j i) as [->|N].
    + destruct (IH i (mk_process (put (own p') i (dev w)) (tones_of (dev w)))) as (q' & H' & W').
      * intros e J. apply S. right. exact J.
      * intro t. cbn [own]. rewrite !put_same. reflexivity.
      * reflexivity.
      * exists q'. split; [|exact W']. econstructor; [exact D|rewrite Sh, W; exact E|exact H'].
    + apply IH; [intros e J; apply S; right; exact J| |].
      * intro t. cbn [own]. rewrite put_other; auto.
      * cbn [shared]. rewrite Sh. apply (deed_leaves k) in D; [|apply (S (Did j k A c sc x (trace w))); [left; reflexivity|exact N]].
        apply D in E. rewrite E. cbn [dev start]. symmetry. apply tones_wear.
Qed.
Theorem twins_apart p ds q i : history p ds q ->
  ((forall e, In e ds -> who e = i -> sort_of e <> Toning) -> exists q', history p (only i ds) q' /\ forall t, wear t (own q' i) = wear t (own q i)) /\
  ((forall e, In e ds -> who e <> i -> sort_of e <> Connecting) ->
     exists q', history p (only i ds) q' /\ (forall t, wear t (own q' i) = wear t (own q i)) /\ shared q' = shared q).
Proof. intro H. split; intro S; [eapply apart_silent|eapply apart_alone]; eauto. Qed.

(** ** The class attributes *)
Theorem twins_kept p ds q : history p ds q -> (forall e, In e ds -> sort_of e <> Connecting) -> shared q = shared p.
Proof.
  induction 1 as [p|p j k A c sc x w ds q D E H IH]; intro S; [reflexivity|]. rewrite IH by (intros e J; apply S; right; exact J).
  cbn [shared]. apply (deed_leaves k) in D; [|apply (S (Did j k A c sc x (trace w))); left; reflexivity]. apply D in E. rewrite E. apply tones_wear.
Qed.
Theorem twins_grow p ds q : history p ds q ->
  (t_huawei (shared p) = true -> t_huawei (shared q) = true) /\ (t_support (shared p) = true -> t_support (shared q) = true).
Proof.
  induction 1 as [p|p j k A c sc x w ds q D E H IH]; [auto|]. apply deed_grows in D. apply D in E. cbn [shared t_huawei t_support tones_of] in *. cbn [dev start] in E. destruct E, IH. split; auto.
Qed.
Lemma deed_found k A (c : M A) i m sc x w : deed_of k A c -> k = Connecting -> c (start m sc) = Done x w -> succeeded (Did i k A c sc x (trace w)) ->
  exists commands t, found (Did i k A c sc x (trace w)) commands t /\ configured m (dev w) commands t.
Proof.
  intro D. revert x. destruct D as [A' c' U|pin|n s]; intros x K E S; try discriminate K. destruct x as [[]|e]; [|contradiction S]. apply connect_features in E. destruct E as [(cs & t & R & Kd & C & _) _].
  exists cs, t. split; [constructor; assumption|exact C].
Qed.
Theorem twins_tones p ds q : history p ds q -> (forall e, In e ds -> sort_of e = Connecting -> succeeded e) ->
  exists ks, Forall2 (fun e ck => found e (fst ck) (snd ck)) (connecting ds) ks /\
    (t_huawei (shared q) = true <-> t_huawei (shared p) = true \/ exists ck, In ck ks /\ snd ck = THuawei) /\
    (t_support (shared q) = true <-> t_support (shared p) = true \/ exists ck, In ck ks /\ dtmf_known (fst ck) (snd ck)).
Proof.
  induction 1 as [p|p j k A c sc x w ds q D E H IH]; intro S.
  - exists []. split; [constructor|]. split; (split; [auto|intros [?|(? & [] & _)]; auto]).
  - destruct IH as (ks & F & Q1 & Q2); [intros e J; apply S; right; exact J|]. cbn [shared] in Q1, Q2. destruct k.
    1,3: exists ks; (split; [exact F|]); pose proof (deed_leaves _ _ _ D ltac:(discriminate) _ _ _ E) as L; cbn [dev start] in L; rewrite tones_wear in L; rewrite L in *; auto.
    destruct (deed_found _ _ _ j _ _ _ _ D eq_refl E) as (cs & t & Fo & C); [apply S; [left; reflexivity|reflexivity]|].
    exists ((cs, t) :: ks). split; [cbn [connecting filter sort_of]; constructor; assumption|]. destruct C as [_ _ _ _ C5 C6]. cbn [tones_of t_huawei t_support] in Q1, Q2.
    change (dtmfHuawei (wear (shared p) (own p j))) with (t_huawei (shared p)) in C6. change (dtmfSupport (wear (shared p) (own p j))) with (t_support (shared p)) in C5. split.
    + rewrite Q1, C6. split.
      * intros [[?| ->]|(ck & I & T)]; [auto|right; exists (cs, THuawei); split; [left|]; reflexivity|right; exists ck; split; [right; exact I|exact T]].
      * intros [?|(ck & [<-|I] & T)]; [auto|auto|right; exists ck; auto].
    + rewrite Q2, C5. split.
      * intros [[?|K]|(ck & I & T)]; [auto|right; exists (cs, t); split; [left; reflexivity|exact K]|right; exists ck; split; [right; exact I|exact T]].
      * intros [?|(ck & [<-|I] & T)]; [auto|auto|right; exists ck; auto].
Qed.

(** ** Tones *)
Lemma history_last p ds e q : history p (ds ++ [e]) q -> exists p', history p ds p' /\ history p' [e] q.
Proof.
  revert p. induction ds as [|d ds IH]; intros p H; [exists p; split; [constructor|exact H]|].
  cbn [List.app] in H. inversion H as [|p0 i k A c sc x w ds0 q0 D E H1]; subst. apply IH in H1. destruct H1 as (p' & H1 & H2). exists p'. split; [|exact H2]. econstructor; eauto.
Qed.
Theorem twins_sent p ds q i n s sc x evs : history p (ds ++ [Did i Toning unit (sendDtmfTone n s) sc x evs]) q -> exists p', history p ds p' /\
  (forall c, nth_error (callObjs (own p' i)) n = Some c -> c_answered c = true -> 0 <= c_id c -> s <> [] -> no_brace s ->
     exists base l y, tone_base (t_huawei (shared p')) (c_id c) base /\ tone_list base s l /\ exchange (lit "AT" ++ l) [13] evs y /\ tone_result y x).
Proof.
  intro H. apply history_last in H. destruct H as (p' & H1 & H2). exists p'. split; [exact H1|]. intros c N A I0 E B.
  remember (Did i Toning unit (sendDtmfTone n s) sc x evs) as e eqn:Q. remember [e] as l eqn:L. destruct H2 as [|p0 j k A0 c0 sc0 x0 w ds0 q0 D X H3]; [discriminate L|].
  injection L as L1 _. subst e.
  assert (G : exists x1 w1, sendDtmfTone n s (start (wear (shared p0) (own p0 i)) sc) = Done x1 w1 /\ x1 = x /\ trace w1 = evs).
  { refine (match L1 in _ = e return match e with Did i' _ unit' c' sc' x' evs' => exists x1 w1, c' (start (wear (shared p0) (own p0 i')) sc') = Done x1 w1 /\ x1 = x' /\ trace w1 = evs' end with eq_refl => _ end).
    exists x0, w. auto. }
  destruct G as (x1 & w1 & G & -> & <-).
  apply (tones_sent n s (wear (shared p0) (own p0 i)) sc c x w1); assumption.
Qed.
