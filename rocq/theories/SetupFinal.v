(** Proofs about connect as a whole, the message mode and simple queries. *)
From Verif Require Import Base RegexModel RegexProofs UtilModel ModemCore ModemSpec WriteProofs MonadProofs SendSpec SendProofs TrackSpec CoverageSpec CoverageProofs QueryProofs TrieProofs ModemFinal SmsModel CallModel RingProofs ConnectModel ConnectSpec ConnectProofs CentreProofs UssdModel UssdSpec UssdProofs SetupSpec SetupProofs FeatureProofs.

(** ** More commands before and after *)
Lemma accepted_mono t a l b : accepted t l -> accepted t (a ++ l ++ b).
Proof. rewrite !accepted_app. auto. Qed.
Lemma refused_mono t a l b : refused_command t l -> refused_command t (a ++ l ++ b).
Proof. rewrite !refused_app. auto. Qed.
Lemma in_mid {A} (x : A) a l b : In x l -> In x (a ++ l ++ b).
Proof. rewrite !in_app_iff. auto. Qed.
Lemma repertoire_mono a l b x : repertoire l x -> repertoire (a ++ l ++ b) x.
Proof.
  intros [l0 ls cs H1 H2 H3|l0 line H1 H2|l0 H]; [eapply rp_some|eapply rp_short|apply rp_refused]; eauto using in_mid, refused_mono.
Qed.
Lemma storage_mono a l b x : storage l x -> storage (a ++ l ++ b) x.
Proof.
  intros [H|ls items H1 H2 H3 H4|ls items bs H1 H2 H3 H4 H5 H6]; [apply st_refused|eapply st_unusable|eapply st_set]; eauto using in_mid, refused_mono, accepted_mono.
Qed.
Lemma wind_mono a l b : wind_on l -> wind_on (a ++ l ++ b).
Proof. intros [(ls & H & G)|H]; [left; exists ls; auto using in_mid|right; apply accepted_mono; auto]. Qed.
Lemma configured_settings m m1 m2 cs k : settings m1 = settings m2 -> configured m m1 cs k -> configured m m2 cs k.
Proof. intros E [A B C D F G]. unfold settings in E. injection E as E1 E2 E3 E4 E5 E6. constructor; congruence. Qed.

(** ** connect *)
Definition late : list str := [lit "AT+CLIP=1"; lit "AT+CRC=1"; lit "AT+CNMI=2,1,0,2"].
Definition early (e : event) : Prop := match e with EWrite x _ => Forall (fun t => x <> t ++ [13]) late | _ => True end.
Ltac early_w := apply only_write; [intro; cbn [early]; unfold late; repeat (apply Forall_cons; [discriminate|]); apply Forall_nil|intro; exact Logic.I].
Lemma early_hint cs : only early (connect_hint cs).
Proof. unfold connect_hint, forget, manufacturer, query_first, first_line. only_tac; try early_w; handler_tac; only_tac; try early_w. Qed.
Lemma early_said {A} (c : M A) w x w' l : only early c -> c w = Done x w' -> asked (trace w') = asked (trace w) ++ l -> forall t, In t late -> foreign t l.
Proof.
  intros O H E t I. destruct (O w) as (evs & T & F). rewrite H in T. cbn in T. rewrite T, asked_app in E. apply app_inv_head in E as <-.
  clear - F I. induction F as [|e evs H _ IH]; [constructor|]. destruct e; cbn; auto. constructor; auto. cbn [early] in H. rewrite Forall_forall in H. apply (H t I).
Qed.
Definition features m w : Prop :=
  (exists commands k, repertoire (asked (trace w)) commands /\ kind_of commands (asked (trace w)) k /\ configured m (dev w) commands k /\ sends_option commands (asked (trace w)) /\
     (accepted (lit "AT+WIND?") (asked (trace w)) -> wind_on (asked (trace w)))) /\
  ((clip (dev w) = true <-> accepted (lit "AT+CLIP=1") (asked (trace w))) /\ (clip (dev w) = false -> refused_command (lit "AT+CLIP=1") (asked (trace w))) /\
   (clip (dev w) = true -> (crc (dev w) = true <-> accepted (lit "AT+CRC=1") (asked (trace w)))) /\
   (clip (dev w) = false -> crc (dev w) = crc m /\ ~ sent (lit "AT+CRC=1") (asked (trace w)))) /\
  exists st, storage (asked (trace w)) st /\ memRead (dev w) = memory_of st (memRead m) /\
    (sent (lit "AT+CNMI=2,1,0,2") (asked (trace w)) <-> smsReadSupported m = true /\ st <> None) /\
    (smsReadSupported (dev w) = true <-> smsReadSupported m = true /\ st <> None /\ accepted (lit "AT+CNMI=2,1,0,2") (asked (trace w))).
Theorem connect_features pin m sc w : connect pin (start m sc) = Done (Ok tt) w -> features m w.
Proof.
  intro H. unfold connect in H. unfold mbind at 1, modify at 1 in H.
  apply bind_ok in H as ([] & w1 & H1 & H). pose proof (proj1 (reset_keeps pin) (mk_world (set_alive true m) sc [])) as KA1. pose proof (proj1 (proj2 (reset_keeps pin)) (mk_world (set_alive true m) sc [])) as KB1.
  cbn [dev start script trace] in H1. rewrite H1 in KA1, KB1. cbn [last_of dev] in KA1, KB1. apply (plain_said _ _ _ _ (plain_reset pin)) in H1 as (l1 & T1 & F1). cbn [trace asked flat_map app] in T1.
  apply bind_ok in H as (commands & w2 & H2 & H). pose proof (plain_said _ _ _ _ plain_commands H2) as (l2' & T2' & F2).
  apply commands_said in H2 as (l2 & r & v2 & busy & codes & T2 & S2 & He & D2 & _). rewrite T2 in T2'. apply app_inv_head in T2' as <-.
  apply bind_ok in H as (h & w3 & H3 & H). pose proof (early_said _ _ _ _ (skipn (length (asked (trace w2))) (asked (trace w3))) (early_hint commands) H3) as F3. apply hint_said in H3 as (l3 & v3 & d & T3 & D3 & Sd & SO & K & WO).
  apply bind_ok in H as ([] & w4 & H4 & H). pose proof (proj1 (table_keeps commands h) w3) as KB4. rewrite H4 in KB4. cbn [last_of] in KB4.
  apply (table_said _ _ _ _ m d) in H4 as (T4 & m4 & KA4 & C).
  2:{ rewrite D3, D2. unfold settings in *. cbn in *. congruence. }
  2:{ rewrite Sd, D2. unfold settings in KA1. cbn in *. injection KA1 as _ _ _ _ X _. rewrite X. tauto. }
  apply bind_ok in H as (y & w5 & H5 & H). pose proof (plain_said _ _ _ _ plain_cops H5) as (l5 & T5 & F5).
  assert (KA5 : settings (dev w5) = settings (dev w4) /\ reading (dev w5) = reading (dev w4)) by (apply noparse_said in H5 as (? & v5 & _ & D5); rewrite D5; auto). destruct KA5 as [KA5 KB5].
  apply bind_ok in H as ([] & w6 & H6 & H). pose proof (sms_keeps settings (fun _ _ => eq_refl) (fun _ _ => eq_refl) w5) as KA6. pose proof (sms_keeps reading (fun _ _ => eq_refl) (fun _ _ => eq_refl) w5) as KB6.
  rewrite H6 in KA6, KB6. cbn [last_of] in KA6, KB6. apply (plain_said _ _ _ _ plain_sms) in H6 as (l6 & T6 & F6).
  apply bind_ok in H as ([] & w7 & H7 & H). pose proof (proj1 memory_keeps w6) as KA7. pose proof (proj2 memory_keeps w6) as KB7. rewrite H7 in KA7, KB7. cbn [last_of] in KA7, KB7.
  pose proof (plain_said _ _ _ _ plain_memory H7) as (l7' & T7' & F7). apply memory_said in H7 as (l7 & st & T7 & St & R7 & M7). rewrite T7 in T7'. apply app_inv_head in T7' as <-.
  pose proof (proj1 notifications_keep w7) as KA8. pose proof (proj2 notifications_keep w7) as KB8. rewrite H in KA8, KB8. cbn [last_of] in KA8, KB8.
  apply notifications_said in H as (l8 & T8 & C1 & C2 & C3 & C4 & C5 & C6 & F8).
  unfold features. rewrite T8, T7, T6, T5, T4, T3, T2, T1, <- !app_assoc. set (L := l1 ++ l2 ++ l3 ++ l5 ++ l6 ++ l7 ++ l8).
  assert (E3 : L = (l1 ++ l2) ++ l3 ++ (l5 ++ l6 ++ l7 ++ l8)) by (unfold L; rewrite <- !app_assoc; auto).
  assert (E7 : L = (l1 ++ l2 ++ l3 ++ l5 ++ l6) ++ l7 ++ l8) by (unfold L; rewrite <- !app_assoc; auto).
  assert (Eq : reading (dev w6) = reading m) by (rewrite KB6, KB5, KB4, D3, D2; exact KB1). unfold reading in Eq. injection Eq as Q1 Q2 Q3 Q4. injection KB7 as Q5 Q6 _. injection KB8 as Q7 _.
  split; [|split].
  - exists commands, (table_for h). split; [|split; [|split; [|split]]].
    + unfold L. apply repertoire_mono. destruct commands as [cs|]; [destruct He as (ls & -> & G & Li); eapply rp_some; [apply said_in; eauto|auto|auto]|].
      destruct He as [R|(line & -> & G)]; [apply rp_refused; apply (said_refused _ _ _ S2 R)|eapply rp_short; [apply said_in; eauto|auto]].
    + rewrite E3. apply kind_mono. auto.
    + eapply configured_settings; [|exact C]. rewrite KA8, KA7, KA6, KA5. auto.
    + destruct SO as [S1 S3]. unfold L. unfold sends_option. rewrite !sent_app.
      assert (X : forall t, In t [lit "AT^CVOICE=0"; lit "AT^USSDMODE=0"] -> ~ sent t l1 /\ ~ sent t l2 /\ ~ sent t l5 /\ ~ sent t l6 /\ ~ sent t l7 /\ ~ sent t l8).
      { intros t It. assert (In t special) by (unfold special; cbn in It |- *; tauto). assert (In t [lit "AT+WIND?"; lit "AT^CVOICE=0"; lit "AT^USSDMODE=0"]) by (cbn in It |- *; tauto).
        repeat split; apply foreign_sent; auto. }
      pose proof (X (lit "AT^CVOICE=0") ltac:(cbn; auto)). pose proof (X (lit "AT^USSDMODE=0") ltac:(cbn; auto)). split; tauto.
    + intro A. rewrite E3. apply wind_mono. apply WO. unfold L in A. rewrite !accepted_app in A.
      assert (X : forall l, (forall t, In t special -> foreign t l) -> ~ accepted (lit "AT+WIND?") l) by (intros l Fl; apply foreign_accepted; apply Fl; cbn; auto).
      pose proof (X _ F1). pose proof (X _ F2). pose proof (X _ F5). pose proof (X _ F6). pose proof (X _ F7). assert (~ accepted (lit "AT+WIND?") l8) by (apply foreign_accepted; apply F8; cbn; auto). tauto.
  - assert (X : forall t, In t late -> (accepted t L <-> accepted t l8) /\ (sent t L <-> sent t l8) /\ (refused_command t l8 -> refused_command t L)).
    { intros t It. assert (In t special) by (unfold special, late in *; cbn in It |- *; tauto). rewrite T3, skipn_app, skipn_all, Nat.sub_diag in F3. cbn [skipn app] in F3.
      assert (Fl : foreign t (l1 ++ l2 ++ l3 ++ l5 ++ l6 ++ l7)) by (rewrite !foreign_app; auto 10). assert (E8 : L = (l1 ++ l2 ++ l3 ++ l5 ++ l6 ++ l7) ++ l8) by (unfold L; rewrite <- !app_assoc; auto).
      rewrite E8, accepted_app, sent_app, refused_app. pose proof (foreign_accepted _ _ Fl). pose proof (foreign_sent _ _ Fl). tauto. }
    destruct (X (lit "AT+CLIP=1") ltac:(cbn; auto)) as (X1 & _ & X2). destruct (X (lit "AT+CRC=1") ltac:(cbn; auto)) as (X3 & X4 & _). rewrite X1, X3, X4.
    split; auto. split; auto. split; auto. intro Z. destruct (C4 Z) as [Y1 Y2]. split; auto. congruence.
  - exists st. split; [rewrite E7; apply storage_mono; auto|].
    assert (X : (accepted (lit "AT+CNMI=2,1,0,2") L <-> accepted (lit "AT+CNMI=2,1,0,2") l8) /\ (sent (lit "AT+CNMI=2,1,0,2") L <-> sent (lit "AT+CNMI=2,1,0,2") l8)).
    { rewrite T3, skipn_app, skipn_all, Nat.sub_diag in F3. cbn [skipn app] in F3.
      assert (Fl : foreign (lit "AT+CNMI=2,1,0,2") (l1 ++ l2 ++ l3 ++ l5 ++ l6 ++ l7)) by (rewrite !foreign_app; repeat split; first [apply F1|apply F2|apply F3; auto|apply F5|apply F6|apply F7]; cbn; auto).
      assert (E8 : L = (l1 ++ l2 ++ l3 ++ l5 ++ l6 ++ l7) ++ l8) by (unfold L; rewrite <- !app_assoc; auto).
      rewrite E8, accepted_app, sent_app. pose proof (foreign_accepted _ _ Fl). pose proof (foreign_sent _ _ Fl). tauto. }
    destruct X as [X1 X2]. rewrite X1, X2, C5, C6, R7, Q7, M7, Q1, Q2. split; auto.
    destruct st as [s|]; [assert (Some s <> None) by discriminate; tauto|split; split; intros; intuition congruence].
Qed.

(** ** The message mode *)
Lemma mode_app c l1 l2 c' : mode_after c (l1 ++ l2) c' <-> exists d, mode_after c l1 d /\ mode_after d l2 c'.
Proof.
  revert c. induction l1 as [|q l1 IH]; intro c; cbn [app].
  - split; [intro H; exists c; split; [constructor|auto]|intros (d & A & B); inversion A; subst; auto].
  - split.
    + intro H. inversion H as [|c0 q0 c1 l0 c2 S A]; subst. apply IH in A as (d & A & B). exists d. split; auto. econstructor; eauto.
    + intros (d & A & B). inversion A as [|c0 q0 c1 l0 c2 S A']; subst. econstructor; [exact S|]. apply IH. eauto.
Qed.
Definition other (x : str * option reply) : Prop := ~ starts_with (lit "AT+CMGF") (fst x) /\ ~ starts_with (lit "ATZ") (fst x).
Lemma mode_text b : starts_with (lit "AT+CMGF") (mode_command b ++ [13]) /\ ~ starts_with (lit "ATZ") (mode_command b ++ [13]).
Proof. split; [exists (lit "=" ++ [if b then 49 else 48] ++ [13]); reflexivity|intros [r X]; discriminate]. Qed.
Lemma mode_other c l c' : Forall other l -> mode_after c l c' -> c' = c.
Proof.
  intros F H. induction H as [c|c q c' l c'' S A IH]; auto. inversion F as [|q0 l0 [F1 F2] F3]; subst. rewrite (IH F3).
  inversion S as [b ls c0 G|b ls c0 G|b ls c0 c1|t r c0 c1 Z|t r c0 N1 N2]; subst; cbn [fst ask] in *; try reflexivity; try (exfalso; apply F1; apply mode_text); tauto.
Qed.
Lemma busy_not_good code ls : busy_reply code (Lines ls) -> ~ good_answer ls.
Proof. intros B G. destruct (good_outcome [] _ G) as [_ N]. apply (N _ B). Qed.
Lemma mode_set b ls c c' : mode_step c (ask (mode_command b) (Lines ls)) c' -> (good_answer ls -> c' = b) /\ (~ good_answer ls -> c' = c).
Proof.
  intro S. remember (ask (mode_command b) (Lines ls)) as q eqn:E. destruct (mode_text b) as [X1 X2].
  destruct S as [b' ls' c0 G|b' ls' c0 G|b' ls' c0 c1|t r c0 c1 Z|t r c0 N1 N2].
  - unfold ask in E. injection E as E <-. split; [intros _|tauto]. destruct b, b'; auto; discriminate E.
  - unfold ask in E. injection E as _ <-. tauto.
  - discriminate E.
  - injection E as -> _. tauto.
  - injection E as -> _. tauto.
Qed.
Lemma mode_said b l r c c' : said (mode_command b) l r -> mode_after c l c' ->
  forall ls, r = Lines ls -> (good_answer ls -> c' = b) /\ (~ good_answer ls -> c' = c).
Proof.
  intros (busy & codes & -> & B) H ls ->. rewrite map_app in H. apply mode_app in H as (d & A & H).
  assert (d = c).
  { clear H. revert c A. induction B as [|q code busy codes B _ IH]; intros c A; [inversion A; auto|]. cbn [map] in A. inversion A as [|c0 q0 c1 l0 c2 S A']; subst.
    pose proof B as (_ & before & line & k & E & _). subst q. apply mode_set in S as [_ S]. rewrite (S (busy_not_good _ _ B)) in A'. auto. }
  subst d. cbn [map] in H. inversion H as [|c0 q0 c1 l0 c2 S A']; subst. inversion A'; subst. apply mode_set in S. auto.
Qed.
Lemma mode_bare b : mode_command b = lit "AT+CMGF=" ++ str_of_Z (if b then 1 else 0).
Proof. destruct b; reflexivity. Qed.
(** commands other than AT+CMGF and ATZ *)
Definition unmoded (e : event) : Prop := match e with EWrite x _ => ~ starts_with (lit "AT+CMGF") x /\ ~ starts_with (lit "ATZ") x | _ => True end.
Ltac un_w := apply only_write; [intro; split; intros [? ?]; discriminate|intro; exact Logic.I].
Ltac un_tac := only_tac; try un_w; handler_tac; only_tac; try un_w.
Lemma un_get : only unmoded get_smsc.
Proof. unfold get_smsc. un_tac. Qed.
Lemma un_set n : only unmoded (set_smsc n).
Proof. unfold set_smsc. un_tac. Qed.
Lemma un_memory : only unmoded connect_memory.
Proof. unfold connect_memory, forget. un_tac. Qed.
Lemma un_notifications : only unmoded connect_notifications.
Proof. unfold connect_notifications, forget. un_tac. Qed.
Lemma un_said {A} (c : M A) w x w' : only unmoded c -> c w = Done x w' -> exists l, asked (trace w') = asked (trace w) ++ l /\ Forall other l.
Proof.
  intros O H. destruct (O w) as (evs & T & F). rewrite H in T. cbn in T. exists (asked evs). rewrite T, asked_app. split; auto.
  clear - F. induction F as [|e evs H _ IH]; [constructor|]. destruct e; cbn; auto.
Qed.
Theorem connect_mode pin m sc w c c' : connect pin (start m sc) = Done (Ok tt) w -> mode_after c (asked (trace w)) c' -> c' = smsTextMode m /\ smsTextMode (dev w) = smsTextMode m.
Proof.
  intros H A. unfold connect in H. unfold mbind at 1, modify at 1 in H.
  apply bind_ok in H as ([] & w1 & H1 & H). pose proof (proj2 (proj2 (reset_keeps pin)) (mk_world (set_alive true m) sc [])) as K1. cbn [dev start script trace] in H1. rewrite H1 in K1. cbn [last_of dev] in K1.
  apply bind_ok in H as (commands & w2 & H2 & H). apply commands_said in H2 as (_ & _ & v2 & _ & _ & _ & _ & _ & D2 & _).
  apply bind_ok in H as (h & w3 & H3 & H). apply hint_said in H3 as (_ & v3 & d & _ & D3 & _).
  apply bind_ok in H as ([] & w4 & H4 & H). pose proof (proj2 (table_keeps commands h) w3) as K4. rewrite H4 in K4. cbn [last_of] in K4.
  apply bind_ok in H as (y & w5 & H5 & H). apply noparse_said in H5 as (? & v5 & _ & D5).
  assert (Q5 : smsTextMode (dev w5) = smsTextMode m) by (rewrite D5; cbn; rewrite K4, D3, D2; exact K1).
  apply bind_ok in H as ([] & w6 & H6 & H). pose proof (sms_keeps smsTextMode (fun _ _ => eq_refl) (fun _ _ => eq_refl) w5) as K6. rewrite H6 in K6. cbn [last_of] in K6.
  unfold connect_sms in H6. unfold mbind at 1, get in H6. rewrite Q5, <- mode_bare in H6. apply bind_ok in H6 as (ls & w6' & W6 & H6). apply write_accepted in W6 as (l6 & v6 & T6 & S6 & G6 & _).
  apply (un_said _ w6') in H6 as (l6' & T6' & O6).
  2:{ un_tac; first [apply un_get|apply un_set|idtac]. }
  apply bind_ok in H as ([] & w7 & H7 & H). pose proof (proj2 memory_keeps w6) as K7. rewrite H7 in K7. cbn [last_of] in K7. injection K7 as _ _ K7. apply (un_said _ _ _ _ un_memory) in H7 as (l7 & T7 & O7).
  pose proof (proj2 notifications_keep w7) as K8. rewrite H in K8. cbn [last_of] in K8. injection K8 as _ K8. apply (un_said _ _ _ _ un_notifications) in H as (l8 & T8 & O8).
  rewrite T8, T7, T6', T6, <- !app_assoc in A. apply mode_app in A as (d1 & _ & A). apply mode_app in A as (d2 & A1 & A2).
  apply mode_other in A2; [|rewrite !Forall_app; auto]. subst d2. destruct (mode_said _ _ _ _ _ S6 A1 ls eq_refl) as [X _]. split; [auto|]. rewrite K8, K7, K6. auto.
Qed.
(** the smsTextMode setter *)
Theorem text_mode_set b m sc x w : set_text_mode b (start m sc) = Done x w ->
  match x with Ok _ => smsTextMode (dev w) = b | Err _ => smsTextMode (dev w) = smsTextMode m end /\
  (b = smsTextMode m \/ alive m = false -> x = Ok tt /\ trace w = []) /\
  (b <> smsTextMode m -> alive m = true -> exists y, exchange (mode_command b) [13] (trace w) y /\ x = match y with Ok _ => Ok tt | Err e => Err e end).
Proof.
  intro H. unfold set_text_mode in H. unfold mbind at 1, get in H. cbn [dev start] in H. destruct (Bool.eqb b (smsTextMode m)) eqn:E; cbn [negb] in H.
  - apply Bool.eqb_prop in E. unfold ret in H. injection H as <- <-. split; [auto|]. split; auto. congruence.
  - assert (N : b <> smsTextMode m) by (intros ->; rewrite Bool.eqb_reflx in E; discriminate). destruct (alive m) eqn:Al.
    + rewrite <- mode_bare in H. apply bind_done in H as [([] & w1 & H1 & H)|(e & H1 & ->)].
      * apply bind_ok in H1 as (ls & w2 & W & H1). unfold ret in H1. injection H1 as <-. unfold modify in H. injection H as <- <-. apply exchange_of in W as (evs & T & X). cbn [dev trace start] in *.
        split; [reflexivity|]. split; [intros [Y|Y]; congruence|]. intros _ _. exists (Ok ls). rewrite T. auto.
      * apply bind_done in H1 as [(ls & w1 & _ & H1)|(e' & W & E')]; [discriminate|]. injection E' as <-. destruct (write_frame _ _ _ _ _ W) as [v D]. apply exchange_of in W as (evs & T & X).
        cbn [trace start] in T. split; [rewrite D; auto|]. split; [intros [Y|Y]; congruence|]. intros _ _. exists (Err e). rewrite T. auto.
    + unfold mbind, ret, modify in H. injection H as <- <-. split; [reflexivity|]. split; [intros _; auto|]. intros _ Y. discriminate Y.
Qed.
Lemma text_mode_agrees b m sc x w c : alive m = true -> set_text_mode b (start m sc) = Done x w -> (forall d, x <> Err (TimeoutException d)) -> mode_after (smsTextMode m) (asked (trace w)) c ->
  c = smsTextMode (dev w) /\ alive (dev w) = true.
Proof.
  intros Al H NT A. assert (K : alive (dev w) = alive m).
  { assert (K : keeps alive (set_text_mode b)) by (unfold set_text_mode; keeps_all). pose proof (K (start m sc)) as X. rewrite H in X. exact X. }
  split; [|congruence]. apply text_mode_set in H as (R & N & X). destruct (Bool.bool_dec b (smsTextMode m)) as [E|E].
  - destruct (N (or_introl E)) as [-> T]. rewrite T in A. inversion A; subst. congruence.
  - destruct (X E Al) as (y & (wait & busy & codes & r & T & B & NB & O) & ->). rewrite T, asked_attempts in A.
    assert (S : said (mode_command b) (map (fun b0 => (mode_command b ++ [13], Some b0)) (busy ++ [r])) r) by (exists busy, codes; auto).
    destruct r as [ls|ls].
    + destruct (mode_said _ _ _ _ _ S A ls eq_refl) as [X1 X2]. destruct y as [ls'|e].
      * apply outcome_ok in O as [Y G]. injection Y as ->. rewrite R. auto.
      * rewrite R. apply X2. intro G. apply (good_outcome (mode_command b)) in G as [G _]. pose proof (outcome_fun _ _ _ _ O G). discriminate.
    + exfalso. inversion O; subst; eapply NT; reflexivity.
Qed.
Theorem modes_agree m sc bs m' l c : switched m sc bs m' l -> alive m = true -> mode_after (smsTextMode m) l c -> c = smsTextMode m'.
Proof.
  intro H. revert c. induction H as [m sc|m sc b bs x w m' l E NT _ IH]; intros c Al A; [inversion A; auto|].
  apply mode_app in A as (d & A1 & A2). destruct (text_mode_agrees _ _ _ _ _ _ Al E NT A1) as [-> Al']. auto.
Qed.


(** ** Queries *)
Definition asks {A} (t : str) (q : M A) : Prop := forall w, exists used, script w = used ++ script (last_of (q w)) /\ asked (trace (last_of (q w))) = asked (trace w) ++ map (ask t) used.
Lemma asks_still {A} t (q : M A) : (forall w, script (last_of (q w)) = script w /\ trace (last_of (q w)) = trace w) -> asks t q.
Proof. intros H w. exists []. destruct (H w) as [-> ->]. cbn. rewrite app_nil_r. auto. Qed.
Lemma asks_bind {A B} t (q : M A) (k : A -> M B) : asks t q -> (forall x, asks t (k x)) -> asks t (mbind q k).
Proof.
  intros H K w. unfold mbind. destruct (H w) as (u & S & T). destruct (q w) as [[x|e] w1|w1]; cbn [last_of] in *; eauto.
  destruct (K x w1) as (u2 & S2 & T2). exists (u ++ u2). rewrite S, S2, T2, T, map_app, <- !app_assoc. auto.
Qed.
Lemma asks_try {A} t (q : M A) h : asks t q -> (forall e k, h e = Some k -> asks t k) -> asks t (try_except q h).
Proof.
  intros H K w. unfold try_except. destruct (H w) as (u & S & T). destruct (q w) as [[x|e] w1|w1]; cbn [last_of] in *; eauto. destruct (h e) as [k|] eqn:E; [|eauto].
  destruct (K e k E w1) as (u2 & S2 & T2). exists (u ++ u2). rewrite S, S2, T2, T, map_app, <- !app_assoc. auto.
Qed.
Lemma asks_write t : asks t (write t).
Proof.
  intro w. destruct (write t w) as [x w'|w'] eqn:W; cbn [last_of].
  - unfold write in W. apply write_done in W as (busy & codes & r & S & _ & _ & _ & _ & T). exists (busy ++ [r]). rewrite T, asked_app, asked_attempts, <- app_assoc. auto.
  - unfold write, write_with in W.
    assert (Z : forall busy m tr w', write_on busy m tr t CR true = Stuck w' -> script w' = [] /\ asked (trace w') = asked tr ++ map (ask t) busy).
    { clear. induction busy as [|r busy IH]; intros m tr w' H; cbn [write_on] in H; [injection H as <-; cbn; rewrite app_nil_r; auto|].
      destruct r as [ls|[|l ls]]; [|discriminate|discriminate]. destruct (rev ls) as [|line ls']; [discriminate|]. destruct (judge t line); [discriminate|discriminate|].
      match type of H with match ?o with _ => _ end = _ => destruct o as [[y|e] w1|w1] eqn:O; try discriminate; injection H as -> end.
      apply IH in O as [S T]. split; auto. rewrite T, !asked_app. unfold paused. destruct (0 <? writeWait m); rewrite ?asked_app; cbn; rewrite ?app_nil_r, <- app_assoc; auto. }
    exists (script w). destruct (Z _ _ _ _ W) as [-> ->]. rewrite app_nil_r. auto.
Qed.
Lemma queries_asks {A} t (q : M A) : asks (lit t) q -> queries t q.
Proof. intros H w. specialize (H w). destruct (q w); auto. Qed.
Ltac asks_tac := repeat first [apply asks_write | apply asks_bind; [|intros ?] | apply asks_try; [|intros ? ? ?] | apply asks_still; intros ?; split; reflexivity
  | match goal with |- asks _ (match ?x with _ => _ end) => destruct x end
  | match goal with E : (if ?b then _ else _) = Some _ |- _ => destruct b; [injection E as <-|discriminate E] end
  | match goal with E : match ?b with _ => _ end = Some _ |- _ => destruct b; try discriminate E; injection E as <- end].
Theorem queries_exact : queries "AT+CGMI" manufacturer /\ queries "AT+CGMM" model /\ queries "AT+CGSN" imei /\ queries "AT+CIMI" imsi /\ queries "AT+CGMR" revision /\
  queries "AT+CSQ" signalStrength /\ queries "AT+COPS?" networkName /\ queries "AT+CSCA?" get_smsc /\ queries "AT+CLAC" supportedCommands.
Proof.
  repeat split; apply queries_asks; unfold manufacturer, model, imei, imsi, revision, signalStrength, networkName, get_smsc, supportedCommands, query_first, first_line, on_CommandError; asks_tac.
Qed.
Lemma first_settled busy codes r rest busy' codes' r' rest' : busy ++ r :: rest = busy' ++ r' :: rest' -> all_busy busy codes -> all_busy busy' codes' -> not_busy r -> not_busy r' -> r = r'.
Proof.
  intros E B. revert busy' codes' E. induction B as [|q c busy codes Q _ IH]; intros busy' codes' E B' N N'.
  - destruct B' as [|q c busy' codes' Q _]; cbn in E; [congruence|]. injection E as -> _. destruct (N _ Q).
  - destruct B' as [|q' c' busy' codes' Q' B']; cbn in E; injection E as -> E; [destruct (N' _ Q)|eauto].
Qed.
Theorem commands_exact w x : (exists w', supportedCommands w = Done (Ok x) w') <->
  exists busy codes r rest, script w = busy ++ r :: rest /\ all_busy busy codes /\ heard r x.
Proof.
  split; [intros (w' & H); apply commands_said in H as (_ & r & _ & busy & codes & _ & _ & He & _ & S & B); exists busy, codes, r, (script w'); auto|].
  intros (busy & codes & r & rest & S & B & He). assert (R : refusal r \/ exists ls, r = Lines ls /\ good_answer ls).
  { destruct x as [cs|]; [destruct He as (ls & -> & G & _); eauto|]. destruct He as [R|(line & -> & G)]; [auto|]. right. exists [line]. split; auto. exists [], line. auto. }
  assert (T : exists y w', supportedCommands w = Done (Ok y) w').
  { unfold supportedCommands, try_except. destruct R as [R|(ls & -> & G)].
    - destruct (write_refused (lit "AT+CLAC") w _ _ _ _ S B R) as (e & w' & W & C). unfold mbind. rewrite W, C. unfold ret. eauto.
    - destruct (ask_good (lit "AT+CLAC") w _ _ _ _ S B G) as (w' & W & _). rewrite (bind_run _ _ _ _ _ W). destruct ls as [|l1 [|l2 [|l3 ls]]]; unfold ret; eauto. }
  destruct T as (y & w' & T). exists w'. rewrite T. f_equal. f_equal.
  apply commands_said in T as (_ & r' & _ & busy' & codes' & _ & _ & He' & _ & S' & B'). rewrite S in S'.
  assert (NB : not_busy r) by (destruct R as [[R _]|(ls & -> & G)]; [auto|apply (good_outcome [] _ G)]).
  assert (NB' : not_busy r').
  { destruct y; [destruct He' as (ls & -> & G & _); apply (good_outcome [] _ G)|]. destruct He' as [[R' _]|(line & -> & G)]; [auto|]. apply (good_outcome [] [line]). exists [], line. auto. }
  assert (r' = r) as ->.
  { symmetry. eapply first_settled; eauto. }
  destruct x as [cs|], y as [cs'|]; auto.
  - destruct He as (ls & -> & _ & L), He' as (ls' & E & _ & L'). injection E as <-. f_equal. eapply listed_unique; eauto.
  - destruct He as (ls & -> & G & L). destruct He' as [R'|(line & E & _)]; [|injection E as ->; inversion L; match goal with H : _ = [_] |- _ => destruct ls; discriminate H | _ => discriminate end].
    exfalso. destruct R' as (_ & b & l & E & N). injection E as ->. destruct G as (b' & l' & E & G). apply app_inj_tail in E as [_ ->]. auto.
  - destruct He' as (ls & -> & G & L). destruct He as [R'|(line & E & _)]; [|injection E as ->; inversion L].
    exfalso. destruct R' as (_ & b & l & E & N). injection E as ->. destruct G as (b' & l' & E & G). apply app_inj_tail in E as [_ ->]. auto.
Qed.

(** ** USSD *)
Theorem reply_does u s m sc x w : ussd_reply u s (start m sc) = Done x w ->
  (u_active u = false -> x = Err InvalidStateException /\ w = start m sc) /\
  (u_active u = true -> exists y, exchange (ussd_command s) [13] (trace w) y /\
     match y with
     | Err e => x = Err e /\ ussdEvent (dev w) = None
     | Ok ls => (x = Ok None /\ ussdEvent (dev w) = Some false /\ (length ls = 1%nat \/ Forall (fun l => ~ starts_with (lit "+CUSD") l) ls)) \/
                (x = match parseCusdResponse ls with Ok u => Ok (Some u) | Err e => Err e end /\ ussdEvent (dev w) = None /\ exists l, In l ls /\ starts_with (lit "+CUSD") l)
     end).
Proof.
  intro H. unfold ussd_reply in H. destruct (u_active u) eqn:A.
  - split; [discriminate|]. intros _. assert (D : x = Ok None \/ x <> Ok None) by (destruct x as [[|]|]; auto; right; discriminate). destruct D as [->|N].
    + apply start_waits in H as (E & ls & evs & <- & X & L). exists (Ok ls). auto 6.
    + apply start_answers in H as (E & y & X & Y); auto. exists y. split; auto. destruct y as [ls|e]; [|auto]. right. tauto.
  - split; [|discriminate]. intros _. unfold raise in H. injection H as <- <-. auto.
Qed.
Theorem cancel_does u m sc x w : ussd_cancel u (start m sc) = Done x w ->
  (u_active u = false -> x = Ok tt /\ w = start m sc) /\
  (u_active u = true -> exists y, exchange (lit "AT+CUSD=2") [13] (trace w) y /\ x = match y with Ok _ => Ok tt | Err e => Err e end).
Proof.
  intro H. unfold ussd_cancel in H. destruct (u_active u); split; try discriminate; intros _.
  - apply bind_done in H as [(ls & w1 & W & H)|(e & W & ->)]; apply exchange_of in W as (evs & T & X); cbn [trace start app] in T.
    + unfold ret in H. injection H as <- <-. exists (Ok ls). rewrite T. auto.
    + exists (Err e). rewrite T. auto.
  - unfold ret in H. injection H as <- <-. auto.
Qed.
Theorem identity_exact q t w x : In (q, t) [(manufacturer, "AT+CGMI"); (model, "AT+CGMM"); (imei, "AT+CGSN"); (imsi, "AT+CIMI")]%string ->
  queries t q /\ ((exists w', q w = Done (Ok x) w') <-> exists busy codes more rest, script w = busy ++ Lines (x :: more) :: rest /\ all_busy busy codes /\ good_answer (x :: more)).
Proof.
  intro I. destruct queries_exact as (Q1 & Q2 & Q3 & Q4 & _). cbn in I. destruct I as [E|[E|[E|[E|[]]]]]; injection E as <- <-; (split; [assumption|apply first_exact]).
Qed.

(** the first connect of the process *)
Theorem first_connect pin sc w : connect pin (start modem_init sc) = Done (Ok tt) w ->
  (exists commands k, repertoire (asked (trace w)) commands /\ kind_of commands (asked (trace w)) k /\ callUpdates (dev w) = k /\ (mustPoll (dev w) = true <-> k = TNone) /\
     (waitAtd (dev w) = true <-> k = TNone \/ k = THuawei) /\ (waitInit (dev w) = true <-> k <> TZte) /\ (dtmfSupport (dev w) = true <-> dtmf_known commands k) /\ (dtmfHuawei (dev w) = true <-> k = THuawei)) /\
  (crc (dev w) = true -> clip (dev w) = true) /\
  exists st, storage (asked (trace w)) st /\ memRead (dev w) = memory_of st None /\ (smsReadSupported (dev w) = true <-> st <> None /\ accepted (lit "AT+CNMI=2,1,0,2") (asked (trace w))).
Proof.
  intro H. destruct (connect_features pin _ sc w H) as ((commands & k & R & K & [C1 C2 C3 C4 C5 C6] & _) & (_ & _ & _ & Q) & st & S & M & _ & N).
  cbn in C1, C3, C4, C5, C6, M. split; [|split].
  - exists commands, k. split; auto. split; auto. split; [rewrite C1; destruct k; reflexivity|]. split; auto. split; [rewrite C3; destruct k; intuition discriminate|].
    split; [rewrite C4; destruct k; intuition (discriminate || congruence)|]. split; [rewrite C5; intuition discriminate|rewrite C6; intuition discriminate].
  - intro C. destruct (clip (dev w)); auto. destruct (Q eq_refl) as [E _]. rewrite C in E. discriminate E.
  - exists st. split; auto. split; auto. rewrite N. cbn. intuition auto.
Qed.
