(** Proofs about the programs in tools/. *)
From Verif Require Import Base RegexModel RegexProofs UtilModel UtilProofs PduModel PduSpec DeliverSpec ModemCore ModemSpec WriteProofs MonadProofs SmsModel SendSpec SendProofs LangProofs CoverageSpec CoverageProofs QueryProofs ReadProofs ModemFinal TrackSpec TrackProofs CallModel NotifyModel ConnectModel ConnectSpec ConnectProofs CentreProofs UssdModel StoreLemmas WaitSpec WaitProofs SetupSpec SetupProofs ToolModel ToolSpec.

(** ** connect and the network query announce no message *)
Definition quiet (e : event) : Prop := match e with EWrite t _ => ~ starts_with (lit "AT+CMGS") t | _ => True end.
Lemma quiet_text t : startswith t (lit "AT+CMGS") = false -> forall r, quiet (EWrite t r).
Proof. intros H r (x & ->). destruct x; vm_compute in H; discriminate H. Qed.
Ltac qt := apply only_write; [intro; apply quiet_text; reflexivity|intro; exact Logic.I].
Ltac qt_tac := only_tac; try qt; handler_tac; only_tac; try qt.
Lemma quiet_unlock pin : only quiet (unlockSim pin).
Proof. unfold unlockSim, forget. qt_tac. Qed.
Lemma quiet_reset pin : only quiet (connect_reset pin).
Proof. unfold connect_reset, forget. qt_tac; apply quiet_unlock. Qed.
Lemma quiet_commands : only quiet supportedCommands.
Proof. unfold supportedCommands. qt_tac. Qed.
Lemma quiet_hint cs : only quiet (connect_hint cs).
Proof. unfold connect_hint, forget, manufacturer, query_first, first_line. qt_tac. Qed.
Lemma quiet_table cs h : only quiet (connect_table cs h).
Proof. unfold connect_table. qt_tac. Qed.
Lemma quiet_get_smsc : only quiet get_smsc.
Proof. unfold get_smsc. qt_tac. Qed.
Lemma quiet_set_smsc n : only quiet (set_smsc n).
Proof. unfold set_smsc, forget. qt_tac. Qed.
Lemma quiet_sms : only quiet connect_sms.
Proof. unfold connect_sms. qt_tac; first [apply quiet_get_smsc|apply quiet_set_smsc]. Qed.
Lemma quiet_memory : only quiet connect_memory.
Proof. unfold connect_memory, forget. qt_tac. Qed.
Lemma quiet_notifications : only quiet connect_notifications.
Proof. unfold connect_notifications, forget. qt_tac. Qed.
Lemma quiet_connect pin : only quiet (connect pin).
Proof.
  unfold connect.
  repeat first [apply quiet_reset|apply quiet_commands|apply quiet_hint|apply quiet_table|apply quiet_sms|apply quiet_memory|apply quiet_notifications|apply only_modify|qt|apply only_bind; [|intros ?]].
Qed.
Lemma quiet_asked evs : Forall quiet evs <-> no_message (asked evs).
Proof.
  unfold no_message. induction evs as [|e evs IH]; [split; constructor|]. destruct e; cbn [asked flat_map app]; fold (asked evs); rewrite ?Forall_cons_iff, IH; cbn; tauto.
Qed.

(** ** The network *)
Definition network_query (e : event) : Prop := match e with EWrite t _ => t = lit "AT+CREG?" ++ [13] \/ t = lit "AT+CSQ" ++ [13] | _ => True end.
Lemma only_strength : only network_query signalStrength.
Proof. unfold signalStrength, first_line. only_tac; apply only_write; [intro; cbn; auto|intro; exact Logic.I]. Qed.
Lemma only_loop fuel : forall timer b, only network_query (coverage_loop fuel timer b).
Proof.
  induction fuel as [|fuel IH]; intros timer b; cbn [coverage_loop]; [apply only_raise|]. destruct (match timer with b0 :: t => (b0, t) | [] => (false, []) end) as [fired timer'].
  destruct fired; [apply only_raise|]. destruct b.
  - apply only_bind; [apply only_write; [intro; cbn; auto|intro; exact Logic.I]|intro ls]. destruct (line_matching CREG_REGEX ls); [|apply only_bind; [apply only_tell; exact Logic.I|intro; apply IH]].
    apply only_bind; [apply only_lift|intro st]. destruct ((st =? 1) || (st =? 5)); [apply only_bind; [apply only_tell; exact Logic.I|intro; apply IH]|].
    destruct (st =? 3); [apply only_raise|]. destruct (st =? 0); [apply only_raise|]. apply only_bind; [apply only_tell; exact Logic.I|intro; apply IH].
  - apply only_bind; [apply only_strength|intro ss]. destruct (0 <? ss); [apply only_ret|]. apply only_bind; [apply only_tell; exact Logic.I|intro; apply IH].
Qed.
Lemma only_coverage timer : only network_query (waitForNetworkCoverage timer).
Proof. intro w. unfold waitForNetworkCoverage. apply only_loop. Qed.
Lemma network_quiet e : network_query e -> quiet e /\ not_pin e.
Proof. destruct e; cbn; auto. intros [-> | ->]; split; intros (x & E); discriminate E. Qed.

(** ** What connect leaves alone *)
Definition sending_state (m : modem) := (smsTextMode m, smsRef m, sentObjs m, sentTable m).
Lemma ss_reset pin : keeps sending_state (connect_reset pin).
Proof. unfold connect_reset, forget. keeps_all; try (apply keeps_unlock; intros; reflexivity). Qed.
Lemma ss_commands : keeps sending_state supportedCommands.
Proof. unfold supportedCommands. keeps_all. Qed.
Lemma ss_hint cs : keeps sending_state (connect_hint cs).
Proof. unfold connect_hint, forget, manufacturer, query_first, first_line. keeps_all. Qed.
Lemma ss_table cs h : keeps sending_state (connect_table cs h).
Proof. unfold connect_table. keeps_all. Qed.
Lemma ss_get_smsc : keeps sending_state get_smsc.
Proof. unfold get_smsc. keeps_all. Qed.
Lemma ss_set_smsc n : keeps sending_state (set_smsc n).
Proof. unfold set_smsc, forget. keeps_all. Qed.
Lemma ss_sms : keeps sending_state connect_sms.
Proof. unfold connect_sms. keeps_all; first [apply ss_get_smsc|apply ss_set_smsc]. Qed.
Lemma ss_memory : keeps sending_state connect_memory.
Proof. unfold connect_memory, forget. keeps_all. Qed.
Lemma ss_notifications : keeps sending_state connect_notifications.
Proof. unfold connect_notifications, forget. keeps_all. Qed.
Lemma ss_connect pin : keeps sending_state (connect pin).
Proof.
  unfold connect. apply keeps_bind; [apply keeps_modify; reflexivity|intro]. apply keeps_bind; [apply ss_reset|intro]. apply keeps_bind; [apply ss_commands|intro].
  apply keeps_bind; [apply ss_hint|intro]. apply keeps_bind; [apply ss_table|intro]. apply keeps_bind; [apply keeps_write; reflexivity|intro].
  apply keeps_bind; [apply ss_sms|intro]. apply keeps_bind; [apply ss_memory|intro]. apply ss_notifications.
Qed.
Lemma ss_strength : keeps sending_state signalStrength.
Proof. unfold signalStrength, first_line. keeps_all. Qed.
Lemma ss_loop fuel : forall timer b, keeps sending_state (coverage_loop fuel timer b).
Proof.
  induction fuel as [|fuel IH]; intros timer b; cbn [coverage_loop]; [apply keeps_raise|]. destruct (match timer with b0 :: t => (b0, t) | [] => (false, []) end) as [fired timer'].
  destruct fired; [apply keeps_raise|]. destruct b.
  - apply keeps_bind; [apply keeps_write; reflexivity|intro ls]. destruct (line_matching CREG_REGEX ls); [|apply keeps_bind; [apply keeps_tell|intro; apply IH]].
    apply keeps_bind; [apply keeps_lift|intro st]. destruct ((st =? 1) || (st =? 5)); [apply keeps_bind; [apply keeps_tell|intro; apply IH]|].
    destruct (st =? 3); [apply keeps_raise|]. destruct (st =? 0); [apply keeps_raise|]. apply keeps_bind; [apply keeps_tell|intro; apply IH].
  - apply keeps_bind; [apply ss_strength|intro ss]. destruct (0 <? ss); [apply keeps_ret|]. apply keeps_bind; [apply keeps_tell|intro; apply IH].
Qed.
Lemma ss_coverage timer : keeps sending_state (waitForNetworkCoverage timer).
Proof. intro w. unfold waitForNetworkCoverage. apply ss_loop. Qed.

(** ** Sending has nothing to do with the PIN *)
Lemma exchange_all (P : event -> Prop) c term evs x : exchange c term evs x -> (forall r, P (EWrite (c ++ term) r)) -> (forall t, P (ESleep t)) -> Forall P evs.
Proof. intros (wait & busy & codes & r & -> & _) H1 H2. apply attempts_forall; auto. Qed.
Lemma announces_nc p c r : announces p c -> not_cpin (EWrite (c ++ [13]) r).
Proof. intros (ds & _ & ->) (x & E). discriminate E. Qed.
Lemma carries_nc p t r : carries p t -> not_cpin (EWrite (t ++ [26]) r).
Proof.
  intros H (x & E). destruct H as [|b bs c1 c2 s _ _ H2 H]; [discriminate E|]. cbn in E. injection E as _ E _. subst c2. unfold hex_of in H2. lia.
Qed.
Lemma transmission_nc ps a evs x : transmission ps a evs x -> Forall not_cpin evs.
Proof.
  induction 1 as [|p ps a c t e1 e2 e3 a1 a2 x A C X1 X2 T IH|p ps a c e1 e A X1|p ps a c t e1 e2 a1 e A C X1 X2]; [constructor| | |].
  - apply Forall_app; split; [|apply Forall_app; split; auto].
    + eapply exchange_all; [exact X1|intro; eapply announces_nc; eauto|intro; exact Logic.I].
    + eapply exchange_all; [exact X2|intro; eapply carries_nc; eauto|intro; exact Logic.I].
  - eapply exchange_all; [exact X1|intro; eapply announces_nc; eauto|intro; exact Logic.I].
  - apply Forall_app; split.
    + eapply exchange_all; [exact X1|intro; eapply announces_nc; eauto|intro; exact Logic.I].
    + eapply exchange_all; [exact X2|intro; eapply carries_nc; eauto|intro; exact Logic.I].
Qed.
Lemma send_nc d t fl wt w : smsTextMode (dev w) = false -> exists evs, trace (last_of (sendSms d t fl wt w)) = trace w ++ evs /\ Forall not_cpin evs.
Proof.
  intro T. destruct (encodeSmsSubmitPdu d t (smsRef (dev w)) VNone None true false fl) as [pdus|e] eqn:E.
  - pose proof (sends_parts d t fl wt w pdus T E) as H. destruct (sendSms d t fl wt w) as [x w'|w']; cbn [last_of].
    + destruct H as (evs & y & H & Tr & _). exists evs. split; auto. eapply transmission_nc; eauto.
    + destruct H as (evs & H & (text & Tr)). exists evs. split; auto. apply transmission_nc in Tr. apply Forall_app in Tr as [Tr _]. auto.
  - rewrite (send_unencodable d t fl wt w e T E). exists []. rewrite app_nil_r. auto.
Qed.

Lemma nc_event e : not_cpin e -> not_pin e.
Proof. destruct e; cbn; auto. intros H (x & ->). apply H. exists (61 :: x). reflexivity. Qed.

(** ** sendsms.py *)
Lemma attempt_done {A B} (c : M A) (k : res A -> M B) w : mbind (attempt c) k w = match c w with Done x w' => k x w' | Stuck w' => Stuck w' end.
Proof. unfold mbind, attempt. destruct (c w); auto. Qed.
(** the three calls, one after the other *)
Inductive phases (pin : option str) (deliver : bool) (d text : str) (timer : list bool) (sc : list reply) : out progress -> list event -> list event -> list event -> Prop :=
| ph_connect_hangs w : connect pin (start modem_init sc) = Stuck w -> phases pin deliver d text timer sc (Stuck w) (trace w) [] []
| ph_connect outs e x w : connect pin (start modem_init sc) = Done (Err x) w -> phases pin deliver d text timer sc (Done (Ok (Ended outs e)) w) (trace w) [] []
| ph_coverage_hangs w w1 B : connect pin (start modem_init sc) = Done (Ok tt) w -> waitForNetworkCoverage timer w = Stuck w1 -> trace w1 = trace w ++ B -> phases pin deliver d text timer sc (Stuck w1) (trace w) B []
| ph_coverage w w1 B outs e x : connect pin (start modem_init sc) = Done (Ok tt) w -> waitForNetworkCoverage timer w = Done (Err x) w1 -> trace w1 = trace w ++ B ->
    phases pin deliver d text timer sc (Done (Ok (Ended outs e)) w1) (trace w) B []
| ph_send w w1 ss B C o : connect pin (start modem_init sc) = Done (Ok tt) w -> waitForNetworkCoverage timer w = Done (Ok ss) w1 -> trace w1 = trace w ++ B ->
    last_of o = last_of (sendSms d text false deliver w1) -> trace (last_of o) = trace w1 ++ C -> Forall not_cpin C -> phases pin deliver d text timer sc o (trace w) B C.
Lemma connected_state pin sc w : connect pin (start modem_init sc) = Done (Ok tt) w -> sending_state (dev w) = (false, 0, [], []).
Proof. intro H. pose proof (ss_connect pin (start modem_init sc)) as K. rewrite H in K. exact K. Qed.
Lemma covered_state pin sc timer w ss w1 : connect pin (start modem_init sc) = Done (Ok tt) w -> waitForNetworkCoverage timer w = Done (Ok ss) w1 -> sending_state (dev w1) = (false, 0, [], []).
Proof. intros H1 H2. rewrite <- (connected_state _ _ _ H1). pose proof (ss_coverage timer w) as K. rewrite H2 in K. exact K. Qed.
Lemma sendsms_phases port pin deliver d text timer sc : exists A B C, phases pin deliver d text timer sc (sendsms port pin deliver d text timer (start modem_init sc)) A B C.
Proof.
  unfold sendsms, start_modem. rewrite attempt_done. destruct (connect pin (start modem_init sc)) as [[[]|x] w|w] eqn:Co; [| |exists (trace w), [], []; constructor; auto].
  2:{ exists (trace w), [], []. destruct x; (eapply ph_connect; eauto). }
  rewrite attempt_done. destruct (only_coverage timer w) as (B & T & _). destruct (waitForNetworkCoverage timer w) as [[ss|x] w1|w1] eqn:Cv; cbn [last_of] in T.
  3:{ exists (trace w), B, []. eapply ph_coverage_hangs; eauto. }
  2:{ exists (trace w), B, []. destruct x; (eapply ph_coverage; eauto). }
  rewrite attempt_done. assert (M : smsTextMode (dev w1) = false). { pose proof (covered_state _ _ _ _ _ _ Co Cv) as K. unfold sending_state in K. congruence. }
  destruct (send_nc d text false deliver w1 M) as (C & Tc & Nc). exists (trace w), B, C. eapply ph_send; eauto.
  - destruct (sendSms d text false deliver w1) as [[obj|x] w2|w2]; auto. destruct x; auto.
  - rewrite <- Tc. destruct (sendSms d text false deliver w1) as [[obj|x] w2|w2]; auto. destruct x; auto.
Qed.
Theorem sendsms_order port pin deliver d text timer sc : let w := last_of (sendsms port pin deliver d text timer (start modem_init sc)) in
  exists A B C, asked (trace w) = A ++ B ++ C /\ pin_use pin A /\ no_pin (B ++ C) /\ no_message (A ++ B) /\ (B <> [] -> unlocked pin A) /\ (C <> [] -> unlocked pin A /\ covered B).
Proof.
  cbn zeta. destruct (sendsms_phases port pin deliver d text timer sc) as (A & B & C & P).
  pose proof (connect_pin pin modem_init sc) as PU. destruct (quiet_connect pin (start modem_init sc)) as (eA & TA & QA). cbn [trace start app] in TA.
  exists (asked A), (asked B), (asked C). destruct P as [w Co|outs e x w Co|w w1 B Co Cv T|w w1 B outs e x Co Cv T|w w1 ss B C o Co Cv T L Tc Nc]; rewrite Co in *; cbn [last_of] in *.
  - rewrite app_nil_r. split; [reflexivity|]. split; [exact PU|]. split; [constructor|]. split; [apply Forall_app; split; [rewrite TA; apply quiet_asked; auto|constructor]|]. split; intros []; auto.
  - rewrite app_nil_r. split; [reflexivity|]. split; [exact PU|]. split; [constructor|]. split; [apply Forall_app; split; [rewrite TA; apply quiet_asked; auto|constructor]|]. split; intros []; auto.
  - destruct (only_coverage timer w) as (B' & T' & Q). rewrite Cv in T'. cbn [last_of] in T'. rewrite T in T'. apply app_inv_head in T' as <-.
    rewrite T, asked_app, app_nil_r. split; [reflexivity|]. split; [exact PU|]. split; [apply np_asked; eapply Forall_impl; [|exact Q]; intros; apply network_quiet; auto|].
    split; [apply Forall_app; split; [rewrite TA; apply quiet_asked; auto|apply quiet_asked; eapply Forall_impl; [|exact Q]; intros; apply network_quiet; auto]|].
    split; [intro; apply (connect_ok pin modem_init sc w Co)|intros []; auto].
  - destruct (only_coverage timer w) as (B' & T' & Q). rewrite Cv in T'. cbn [last_of] in T'. rewrite T in T'. apply app_inv_head in T' as <-.
    rewrite T, asked_app, app_nil_r. split; [reflexivity|]. split; [exact PU|]. split; [apply np_asked; eapply Forall_impl; [|exact Q]; intros; apply network_quiet; auto|].
    split; [apply Forall_app; split; [rewrite TA; apply quiet_asked; auto|apply quiet_asked; eapply Forall_impl; [|exact Q]; intros; apply network_quiet; auto]|].
    split; [intro; apply (connect_ok pin modem_init sc w Co)|intros []; auto].
  - destruct (only_coverage timer w) as (B' & T' & Q). rewrite Cv in T'. cbn [last_of] in T'. rewrite T in T'. apply app_inv_head in T' as <-.
    rewrite Tc, T, !asked_app. split; [symmetry; apply app_assoc|]. split; [exact PU|].
    split; [apply no_pin_app; split; [apply np_asked; eapply Forall_impl; [|exact Q]; intros; apply network_quiet; auto|apply np_asked; eapply Forall_impl; [|exact Nc]; intros; apply nc_event; auto]|].
    split; [apply Forall_app; split; [rewrite TA; apply quiet_asked; auto|apply quiet_asked; eapply Forall_impl; [|exact Q]; intros; apply network_quiet; auto]|].
    split; [intro; apply (connect_ok pin modem_init sc w Co)|]. intros _. split; [apply (connect_ok pin modem_init sc w Co)|].
    apply coverage_returns in Cv as (S & r1 & W & r2 & _ & H1 & H2 & H3 & H4 & E). rewrite T, asked_app in E. apply app_inv_head in E. exists S, r1, W, r2, ss. auto.
Qed.

(** encoding a message is not a matter of time *)
Definition timeless {A} (x : res A) : Prop := forall t, x <> Err (TimeoutException t).
Lemma tl_ok {A} (a : A) : timeless (Ok a). Proof. discriminate. Qed.
Lemma tl_bind {A B} (x : res A) (f : A -> res B) : timeless x -> (forall a, timeless (f a)) -> timeless (let* a := x in f a).
Proof. intros H1 H2 t. destruct x; cbn; [apply H2|]. intros [= ->]. apply (H1 t). auto. Qed.
Ltac tl := repeat first [apply tl_ok | match goal with |- timeless (Err _) => intros ?; discriminate end | match goal with |- timeless (bind _ _) => apply tl_bind; [|intros ?] end | match goal with |- timeless (if ?b then _ else _) => destruct b end
  | match goal with |- timeless (match ?x with _ => _ end) => destruct x end].
Lemma tl_byte x : timeless (byte x). Proof. unfold byte. tl. Qed.
Lemma tl_bytes l : timeless (mk_bytes l). Proof. induction l as [|x l IH]; cbn [mk_bytes]; tl; first [apply tl_byte|exact IH]. Qed.
Lemma tl_gsm7 s b : timeless (encodeGsm7 s b). Proof. induction s as [|c s IH]; cbn [encodeGsm7]; tl; exact IH. Qed.
Lemma tl_pack_loop o : forall sh p, timeless (packSeptets_loop o sh p).
Proof. induction o as [|x o IH]; intros sh p; cbn [packSeptets_loop]; tl; apply IH. Qed.
Lemma tl_pack o b : timeless (packSeptets o b). Proof. unfold packSeptets, next. tl; apply tl_pack_loop. Qed.
Lemma tl_int b s : timeless (py_int b s).
Proof. rewrite py_int_eq. unfold int_body. tl. Qed.
Lemma tl_semi n : timeless (encodeSemiOctets n).
Proof.
  unfold encodeSemiOctets. apply tl_bind; [|intro; apply tl_bytes]. generalize (if Nat.odd (length n) then n ++ [70] else n). clear n. intro n.
  assert (H : timeless (semi_pairs n) /\ forall a, timeless (semi_pairs (a :: n))); [|apply H]. induction n as [|b n [IH1 IH2]]; [split; [|intro a]; cbn [semi_pairs]; tl|]. split; [apply IH2|].
  intro a. cbn [semi_pairs]. tl; first [apply tl_int|exact IH1].
Qed.
Lemma tl_address a b : timeless (encodeAddressField a b).
Proof. unfold encodeAddressField. tl; first [apply tl_gsm7|apply tl_pack|apply tl_semi|apply tl_byte]. Qed.
Lemma tl_concat r n i : timeless (concat_encode r n i). Proof. unfold concat_encode, ie_encode_raw. tl; apply tl_bytes. Qed.
Lemma tl_ucs2 t : timeless (encodeUcs2 t). Proof. induction t as [|c t IH]; cbn [encodeUcs2]; tl; first [apply tl_byte|exact IH]. Qed.
Lemma tl_submit number text ref fl : timeless (encodeSmsSubmitPdu number text ref VNone None true false fl).
Proof.
  unfold encodeSmsSubmitPdu, submit_validity. cbn [bind]. apply tl_bind.
  - unfold submit_alphabet. pose proof (tl_gsm7 text false) as G. destruct (encodeGsm7 text false) as [|[]]; intros t0 E0; try discriminate E0; apply (G t0); congruence.
  - intro al. destruct (if MAX_MESSAGE_LENGTH al <? Z.of_nat (length text) then _ else _) as [[cc n] o].
    induction (seq 0 (Z.to_nat n)) as [|k l IH]; cbn [map_res]; [tl|]. apply tl_bind; [|intro; apply tl_bind; [exact IH|intro; tl]].
    unfold submit_part. tl; first [apply tl_gsm7|apply tl_pack|apply tl_address|apply tl_byte|apply tl_concat|apply tl_ucs2|apply tl_bytes].
Qed.

Ltac pick := first [apply en_pin_required|apply en_pin_wrong|apply en_no_signal|apply en_not_connected|apply en_no_network]; auto; try (intros; discriminate).
Theorem sendsms_ends port pin deliver d text timer sc x w : sendsms port pin deliver d text timer (start modem_init sc) = Done x w ->
  match x with
  | Ok (Ended outs e) => ending port deliver d text (trace w) outs e
  | Ok (SentOff outs obj) => outs = hello port :: checking :: sending deliver /\ obj = 0%nat /\
      exists before evs pdus a n, trace w = before ++ evs /\ no_message (asked before) /\ encodeSmsSubmitPdu d text 0 VNone None true false false = Ok pdus /\
        transmits pdus evs (Ok a) /\ reference_in a n /\ sentObjs (dev w) = [mk_sent d text n None]
  | Err _ => False
  end.
Proof.
  unfold sendsms, start_modem. rewrite attempt_done. destruct (quiet_connect pin (start modem_init sc)) as (eA & TA & QA). cbn [trace start app] in TA.
  destruct (connect pin (start modem_init sc)) as [[[]|y] w0|w0] eqn:Co; [| |discriminate]; cbn [last_of] in TA; subst eA; apply quiet_asked in QA.
  2:{ intro H. destruct y; unfold ret in H; injection H as <- <-; pick. }
  rewrite attempt_done. destruct (only_coverage timer w0) as (B & T & Q). assert (NB : no_message (asked B)) by (apply quiet_asked; eapply Forall_impl; [|exact Q]; intros; apply network_quiet; auto).
  assert (Q1 : no_message (asked (trace w0 ++ B))) by (rewrite asked_app; apply Forall_app; auto).
  destruct (waitForNetworkCoverage timer w0) as [[ss|y] w1|w1] eqn:Cv; cbn [last_of] in T; [| |discriminate].
  2:{ intro H. rewrite <- T in Q1. destruct y; unfold ret in H; injection H as <- <-; pick. }
  rewrite attempt_done. pose proof (covered_state _ _ _ _ _ _ Co Cv) as K. unfold sending_state in K. injection K as K1 K2 K3 K4. rewrite <- T in Q1.
  destruct (encodeSmsSubmitPdu d text 0 VNone None true false false) as [pdus|e] eqn:E.
  - pose proof (send_pdu_mode d text false deliver w1 pdus K1) as P. rewrite K2 in P. specialize (P E).
    destruct (sendSms d text false deliver w1) as [[obj|y] w2|w2]; [| |discriminate]; destruct P as (evs & z & Tr & X & F).
    + intro H. unfold ret in H. injection H as <- <-. inversion F as [| | |a n R F1 F2 F3 F4 F5 F6]. subst z. rewrite K3 in F2 |- *. cbn [app] in F2 |- *. split; [destruct deliver; reflexivity|]. split; [reflexivity|].
      exists (trace w1), evs, pdus, a, n. auto 8.
    + pose proof (concluded_final _ _ _ _ _ _ _ F) as Fi. cbn [app]. intro H.
      replace [_; _; Say (10 :: lit "Please type your message and press enter to send it:"); _] with (hello port :: checking :: sending deliver) in H by (destruct deliver; reflexivity).
      replace (_ ++ [Say said_timed_out; CloseModem]) with ((hello port :: checking :: sending deliver) ++ [Say said_timed_out; CloseModem]) in H by (destruct deliver; reflexivity).
      destruct y; unfold ret in H; injection H as <- <-; rewrite ?Tr; try (eapply en_failed; eauto; intros; discriminate).
      inversion F; subst. destruct deliver; [exact (en_timeout port true d text _ _ _ _ _ eq_refl Q1 E X)|exact (en_timeout port false d text _ _ _ _ _ eq_refl Q1 E X)].
  - pose proof (send_unencodable d text false deliver w1 e K1) as P. rewrite K2 in P. rewrite (P E). pose proof (tl_submit d text 0 false) as TL. rewrite E in TL. cbn [app]. intro H.
    replace [_; _; Say (10 :: lit "Please type your message and press enter to send it:"); _] with (hello port :: checking :: sending deliver) in H by (destruct deliver; reflexivity).
    destruct e; unfold ret in H; injection H as <- <-; try (eapply en_unencodable; eauto; intros; discriminate). destruct (TL data). auto.
Qed.
Lemma not_queried evs r : Forall not_cpin evs -> ~ In (pin_query, Some r) (asked evs).
Proof. apply not_asked. Qed.
(** a locked SIM and no PIN *)
Theorem sendsms_no_pin port deliver d text timer sc ls : let w := last_of (sendsms port None deliver d text timer (start modem_init sc)) in
  In (pin_query, Some (Lines ls)) (asked (trace w)) -> good_answer ls -> ~ sim_ready (Lines ls) ->
  sendsms port None deliver d text timer (start modem_init sc) =
    Done (Ok (Ended [hello port; Complain (lit "Error: SIM card PIN required. Please specify a PIN with the -p argument.")] (Exits 1))) w.
Proof.
  cbn zeta. intros I G N. assert (IC : In (pin_query, Some (Lines ls)) (asked (trace (last_of (connect None (start modem_init sc)))))).
  { destruct (sendsms_phases port None deliver d text timer sc) as (A & B & C & P). remember (sendsms port None deliver d text timer (start modem_init sc)) as o eqn:Eo. clear Eo.
    assert (NB : forall w evs, trace (last_of (waitForNetworkCoverage timer w)) = trace w ++ evs -> ~ In (pin_query, Some (Lines ls)) (asked evs)).
    { intros w evs T. destruct (only_coverage timer w) as (B' & T' & Q). rewrite T in T'. apply app_inv_head in T' as ->. apply not_asked. eapply Forall_impl; [|exact Q].
      intros e H. destruct e; cbn; auto. destruct H as [-> | ->]; intros (x & E); discriminate E. }
    destruct P as [w Co|outs e x w Co|w w1 B Co Cv T|w w1 B outs e x Co Cv T|w w1 ss B C o Co Cv T L Tc Nc]; rewrite Co; cbn [last_of] in *; auto.
    - rewrite T, asked_app, in_app_iff in I. destruct I as [I|I]; auto. exfalso. eapply (NB w); [|exact I]. rewrite Cv. auto.
    - rewrite T, asked_app, in_app_iff in I. destruct I as [I|I]; auto. exfalso. eapply (NB w); [|exact I]. rewrite Cv. auto.
    - rewrite Tc, T, !asked_app, !in_app_iff in I. destruct I as [[I|I]|I]; auto; exfalso; [|eapply not_asked; [exact Nc|exact I]].
      eapply (NB w); [|exact I]. rewrite Cv. auto. }
  pose proof (connect_no_pin modem_init sc ls IC G N) as Co. unfold sendsms, start_modem. rewrite attempt_done. rewrite Co. reflexivity.
Qed.

(** ** The end: reports *)
Lemma sn_sms line : keeps sent_state (handleSmsReceived line).
Proof. unfold handleSmsReceived. keeps_tac; first [apply keeps_read|apply keeps_delete]; reflexivity. Qed.
Lemma sn_ussd lines : keeps sent_state (handleUssd lines).
Proof. unfold handleUssd. keeps_tac. Qed.
Lemma sn_answered n b : keeps sent_state (set_answered n b).
Proof. unfold set_answered, change_call. keeps_tac. Qed.
Lemma sn_add c : keeps sent_state (add_call c).
Proof. unfold add_call. keeps_tac. Qed.
Lemma sn_each es number found : keeps sent_state (ring_each es number found).
Proof. revert found. induction es as [|[k n] es IH]; intro found; cbn [ring_each]; keeps_tac; auto. Qed.
Lemma sn_ring lines : keeps sent_state (handleIncomingCall lines).
Proof. unfold handleIncomingCall. keeps_all; first [apply sn_each|apply sn_add|idtac]. Qed.
Lemma sn_initiated g i t : keeps sent_state (handleCallInitiated g i t).
Proof. unfold handleCallInitiated, int_of. keeps_tac. Qed.
Lemma sn_call_answered g i : keeps sent_state (handleCallAnswered g i).
Proof. unfold handleCallAnswered, answered_by_id, int_of. keeps_tac; apply sn_answered. Qed.
Lemma sn_ended g i f : keeps sent_state (handleCallEnded g i f).
Proof. unfold handleCallEnded, int_of, change_call. keeps_tac; apply sn_answered. Qed.
Lemma sn_update t line k : try_updates (call_updates t) line = Some k -> keeps sent_state k.
Proof.
  intro H. unfold call_updates, handleCallRejected in H. destruct t; cbn [try_updates] in H;
  repeat (destruct (re_match _ line) in H; [apply some_inj in H as <-; first [exact (sn_initiated _ _ _)|exact (sn_call_answered _ _)|exact (sn_ended _ _ _)]|]); discriminate H.
Qed.
Lemma sn_notified all rest : Forall (fun l => ~ starts_with (lit "+CDSI") l) rest -> keeps sent_state (notify_each all rest).
Proof.
  induction 1 as [|l rest H _ IH]; cbn [notify_each]; [apply keeps_ret|].
  destruct (contains l (lit "RING")); [apply sn_ring|]. destruct (startswith l (lit "+CMTI")); [apply sn_sms|]. destruct (startswith l (lit "+CUSD")); [apply sn_ussd|].
  destruct (startswith l (lit "+CDSI")) eqn:E; [apply startswith_app in E; contradiction|].
  apply keeps_bind; [apply keeps_get|]. intro m. destruct (try_updates (call_updates (callUpdates m)) l) eqn:T; [eapply sn_update; eauto|exact IH].
Qed.
Lemma received_meanwhile m reps m' : received m reps m' -> meanwhile m reps m'.
Proof. induction 1; [constructor|eapply mw_report; eauto|apply mw_report_failed; auto|apply mw_notified; auto]. Qed.
Lemma received_tracked hs m reps m' : received m reps m' -> tracked hs m -> tracked (hs ++ map (fun r => Reported (fst r) (snd r)) reps) m'.
Proof.
  intros H Tr. induction H as [|reps m1 line mem idx sc st r nb t1 t2 code w1 w _ IH I R H|reps m1 line sc _ IH H|reps m1 lines sc _ IH F].
  - rewrite app_nil_r. auto.
  - rewrite map_app, app_assoc. cbn [map fst snd]. pose proof (status_report_state line mem idx (start m1 sc) I) as X. rewrite H in X.
    destruct X as (st' & r' & nb' & t1' & t2' & code' & w1' & R' & X1 & X2). rewrite R in R'. injection R' as <- <- <- <- <- <- <-. cbn [dev start] in *. eapply tracked_report; eauto.
  - assert (K : sent_state (state_after (handleSmsStatusReport line (start m1 sc))) = sent_state m1); [|unfold sent_state in K; injection K as K1 K2; eapply tracked_same; eauto].
    destruct (CDSI_dec line) as [(mem & idx & I)|NI].
    + destruct H as [H|H]; [|exfalso; eapply H; eauto]. pose proof (status_report_state line mem idx (start m1 sc) I) as X.
      destruct (handleSmsStatusReport line (start m1 sc)) as [[[]|e] w|w]; [exfalso; eapply H; eauto|exact X|exact X].
    + unfold handleSmsStatusReport. rewrite cdsi_is, indication_nomatch by auto. auto.
  - pose proof (keeps_after sent_state (handleNotification lines) (start m1 sc) (sn_notified lines lines F)) as K. unfold sent_state in K. injection K as K1 K2. eapply tracked_same; eauto.
Qed.
Lemma verdict_last n reps : last_report n reps (verdict_for n (map (fun r => Reported (fst r) (snd r)) reps) None).
Proof.
  assert (G : forall reps acc, match verdict_for n (map (fun r => Reported (fst r) (snd r)) reps) acc with
    | Some c => (exists before after, reps = before ++ (n, c) :: after /\ Forall (fun r => fst r <> n) after) \/ acc = Some c /\ Forall (fun r => fst r <> n) reps
    | None => acc = None /\ Forall (fun r => fst r <> n) reps end).
  { induction reps0 as [|[r c] reps0 IH]; intro acc; cbn [map verdict_for fst snd]; [destruct acc; auto|].
    specialize (IH (if r =? n then Some c else acc)). destruct (verdict_for _ _ _) as [c'|].
    - destruct IH as [(b & a & -> & F)|[E F]]; [left; exists ((r, c) :: b), a; auto|]. destruct (Z.eqb_spec r n) as [->|Nr].
      + injection E as ->. left. exists [], reps0. auto.
      + right. auto.
    - destruct IH as [E F]. destruct (Z.eqb_spec r n) as [->|Nr]; [discriminate|]. auto. }
  specialize (G reps None). unfold last_report. destruct (verdict_for _ _ _) as [c|]; [|apply G]. destruct G as [G|[G _]]; [auto|discriminate].
Qed.
Lemma tracked_none m : sentObjs m = [] -> sentTable m = [] -> tracked [] m.
Proof. intros E1 E2. split; [rewrite E1; auto|]. split; [discriminate|]. intros r k. rewrite E2. cbn. split; [discriminate|intros (l & F & _); discriminate]. Qed.
Theorem sendsms_verdict port pin deliver d text timer sc outs obj w s reps m2 sc' : sendsms port pin deliver d text timer (start modem_init sc) = Done (Ok (SentOff outs obj)) w ->
  nth_error (sentObjs (dev w)) obj = Some s -> received (dev w) reps m2 -> exists w3,
  if deliver && match reps with [] => true | _ => false end
  then sendsms_end deliver outs obj (start m2 sc') = Done (Ok (outs ++ [Say (lit "Failed to send message: the send operation timed out"); CloseModem], Exits 1)) w3
  else exists v said, last_report (s_reference s) reps v /\ verdict_text v said /\ sendsms_end deliver outs obj (start m2 sc') = Done (Ok (outs ++ [CloseModem; Say said], Exits 0)) w3.
Proof.
  intros H Hs R. assert (X : exists w1, sending_state (dev w1) = (false, 0, [], []) /\ sendSms d text false deliver w1 = Done (Ok obj) w).
  { unfold sendsms, start_modem in H. rewrite attempt_done in H. destruct (connect pin (start modem_init sc)) as [[[]|y] w0|w0] eqn:Co; [|destruct y; discriminate H|discriminate H].
    rewrite attempt_done in H. destruct (waitForNetworkCoverage timer w0) as [[ss|y] w1|w1] eqn:Cv; [|destruct y; discriminate H|discriminate H].
    rewrite attempt_done in H. exists w1. split; [eapply covered_state; eauto|]. destruct (sendSms d text false deliver w1) as [[obj'|y] w2|w2]; [|destruct y; discriminate H|discriminate H].
    unfold ret in H. injection H as _ <- <-. auto. }
  destruct X as (w1 & K & Se). unfold sending_state in K. injection K as K1 K2 K3 K4. pose proof (sendSms_state d text false deliver w1) as S. rewrite Se in S.
  destruct S as (a & n & _ & _ & -> & _ & S1 & S2 & _). rewrite K3 in *. rewrite K4 in *. cbn [app length] in *. rewrite S1 in Hs. injection Hs as <-. cbn [s_reference].
  assert (Tr : tracked [Sent n] (dev w)).
  { apply (tracked_sent [] (dev w1) (dev w) d text n); [apply tracked_none; auto|rewrite K3; auto|rewrite K3, K4; auto]. }
  pose proof (received_tracked _ _ _ _ R Tr) as Tr2. cbn [app] in Tr2. destruct Tr2 as (_ & O & _). destruct (O 0%nat n _ eq_refl) as (d' & t' & N).
  pose proof (verdict_last n reps) as VL. set (v := verdict_for n (map (fun r => Reported (fst r) (snd r)) reps) None) in *.
  assert (Said : exists said, verdict_text v said /\ said = match v with Some _ => if sent_status (mk_sent d' t' n v) =? 1 then said_delivered else said_not_delivered | None => said_sent end).
  { unfold verdict_text, sent_status. cbn [s_report]. destruct v as [c|]; [|eexists; split; [left; split; reflexivity|reflexivity]]. destruct (Z.eqb_spec c 0) as [->|Nc].
    - eexists; split; [right; left; split; reflexivity|reflexivity].
    - eexists; split; [right; right; exists c; repeat split; auto|reflexivity]. }
  destruct Said as (said & V & Es). unfold sendsms_end. rewrite attempt_done. destruct deliver; cbn [andb].
  - apply received_meanwhile in R. assert (EV : ev (dev w) = Some false).
    { clear - Se. unfold sendSms in Se. apply bind_ok in Se as (m1 & w2 & _ & H). apply bind_ok in H as (r & w3 & _ & H). destruct r as [line|]; [|discriminate].
      apply bind_ok in H as (ref & w4 & _ & H). unfold mbind, modify, get, ret in H. destruct (255 <? _); cbn in H; injection H as _ <-; reflexivity. }
    apply meanwhile_event in R. rewrite EV in R. cbn in R. unfold ev in R. unfold sendSms_wait, mbind, get, modify. cbn [dev start]. rewrite R. destruct reps as [|r0 reps]; cbn [length Nat.eqb negb].
    + eexists. reflexivity.
    + eexists. exists v, said. split; [exact VL|]. split; [exact V|]. cbn [ret raise dev sentObjs set_reportEvent]. rewrite N. subst said. reflexivity.
  - eexists. exists v, said. split; [exact VL|]. split; [exact V|]. unfold mbind, get, ret. cbn [dev start]. rewrite N. subst said. reflexivity.
Qed.

(** ** identify-modem.py *)
Lemma first_asked t x w w' : query_first (lit t) w = Done (Ok x) w' -> exists l more, asked (trace w') = asked (trace w) ++ l /\ answers t l (x :: more).
Proof.
  unfold query_first. intro H. apply bind_ok in H as (ls & w1 & W & H). apply ask_ok in W as (busy & codes & _ & B & G & T). destruct ls as [|l ls]; [discriminate|].
  cbn in H. injection H as <- <-. exists (map (ask (lit t)) (busy ++ [Lines (l :: ls)])), ls. split; auto. exists busy, codes. auto.
Qed.
Lemma revision_asked x w w' : revision w = Done (Ok x) w' -> exists l, asked (trace w') = asked (trace w) ++ l /\ answers_or_declines "AT+CGMR" l x.
Proof.
  unfold revision, try_except. intro H. destruct (mbind (query_first (lit "AT+CGMR")) (fun l => ret (Some l)) w) as [[y|e] w1|w1] eqn:Q; [| |discriminate].
  - injection H as <- <-. apply bind_ok in Q as (l & w2 & Q & H). unfold ret in H. injection H as <- <-. apply first_asked in Q as (l' & more & T & A). exists l'. split; auto. exists more. auto.
  - destruct (is_CommandError e) eqn:C; [|discriminate]. unfold ret in H. injection H as <- <-. apply bind_done in Q as [(l & w2 & Q & H)|(e' & Q & E)]; [discriminate|]. injection E as <-.
    unfold query_first in Q. apply bind_done in Q as [(ls & w2 & W & H)|(e' & W & E)].
    + destruct ls; [|discriminate]. cbn in H. injection H as E0 _. subst e. discriminate C.
    + injection E as <-. apply write_done in W as (busy & codes & r & _ & B & NB & O & _ & T). exists (map (ask (lit "AT+CGMR")) (busy ++ [r])).
      split; [rewrite T, asked_app, asked_attempts; auto|]. exists busy, codes, r. repeat split; auto; eapply not_good_refusal; eauto.
Qed.
Lemma network_asked x w w' : networkName w = Done (Ok x) w' -> exists l ls, asked (trace w') = asked (trace w) ++ l /\ answers "AT+COPS?" l ls /\
  match x with Some name => first_says cops_line ls name | None => nothing_said cops_line ls end.
Proof.
  unfold networkName. intro H. apply bind_ok in H as (ls & w1 & W & H). injection H as <- <-. apply ask_ok in W as (busy & codes & _ & B & G & T).
  exists (map (ask (lit "AT+COPS?")) (busy ++ [Lines ls])), ls. split; auto. split; [exists busy, codes; auto|].
  pose proof (line_matching_says COPS_REGEX cops_line (group 3) ls cops_match cops_match_inv) as L. destruct (line_matching COPS_REGEX ls); auto.
Qed.
Lemma twice_asked t x w w' : twice (always (query_first (lit t))) w = Done (Ok x) w' -> exists y l l' ls more, x = Some y /\ asked (trace w') = asked (trace w) ++ l ++ l' /\ answers t l ls /\ answers t l' (y :: more).
Proof.
  unfold twice. intro H. apply bind_ok in H as (y & w1 & H1 & H). unfold always in *. apply bind_ok in H1 as (z & w2 & Q & H1). unfold ret in H1. injection H1 as <- <-.
  apply bind_ok in H as (z' & w3 & Q' & H). unfold ret in H. injection H as <- <-. apply first_asked in Q as (l & m & T & A). apply first_asked in Q' as (l' & m' & T' & A').
  exists z', l, l', (z :: m), m'. split; auto. split; [rewrite T', T, app_assoc; auto|]. auto.
Qed.
Theorem identify_spec w i w' : identify w = Done (Ok i) w' -> exists l, asked (trace w') = asked (trace w) ++ l /\ identified l i.
Proof.
  unfold identify. intro H.
  apply bind_ok in H as (a & w1 & Ha & H). apply bind_ok in H as (b & w2 & Hb & H). apply bind_ok in H as (c & w3 & Hc & H). apply bind_ok in H as (d & w4 & Hd & H).
  apply bind_ok in H as (e & w5 & He & H). apply bind_ok in H as (f & w6 & Hf & H). apply bind_ok in H as (g & w7 & Hg & H). unfold ret in H. injection H as <- <-.
  apply first_asked in Ha as (la & ma & Ta & Aa). apply first_asked in Hb as (lb & mb & Tb & Ab). apply twice_asked in Hd as (yd & ld & ld1 & sd & md & -> & Td & Ad & Ad1).
  apply twice_asked in He as (ye & le & le1 & se & me & -> & Te & Ae & Ae1). apply network_asked in Hf as (lf & sf & Tf & Af & Nf). apply strength_ok in Hg as (busy & codes & sg & _ & Bg & Gg & Sg & Tg).
  assert (C : exists lc, asked (trace w3) = asked (trace w2) ++ lc /\ (declines "AT+CGMR" lc /\ c = None \/
    exists c0 c1 r0 more, lc = c0 ++ c1 /\ answers "AT+CGMR" c0 (r0 :: more) /\ answers_or_declines "AT+CGMR" c1 c)).
  { unfold twice in Hc. apply bind_ok in Hc as (y & wx & H1 & H2). apply revision_asked in H1 as (l1 & T1 & A1). destruct y as [y|].
    - apply revision_asked in H2 as (l2 & T2 & A2). exists (l1 ++ l2). split; [rewrite T2, T1, app_assoc; auto|]. right. destruct A1 as (more & A1). exists l1, l2, y, more. auto.
    - unfold ret in H2. injection H2 as <- <-. exists l1. auto. }
  destruct C as (lc & Tc & C). eexists. split; [rewrite Tg, Tf, Te, Td, Tc, Tb, Ta, <- !app_assoc; reflexivity|].
  exists la, lb, lc, ld, le, lf, (map (ask (lit "AT+CSQ")) (busy ++ [Lines sg])), ma, mb, ld1, sd, le1, se, md, me, sf, sg. cbn [i_manufacturer i_model i_revision i_imei i_imsi i_network i_signal].
  rewrite <- !app_assoc. split; [reflexivity|]. split; [exact Aa|]. split; [exact Ab|]. split; [exact C|]. split; [exact Ad|]. split; [eauto|]. split; [exact Ae|]. split; [eauto|].
  split; [exact Af|]. split; [exact Nf|]. split; [exists busy, codes; auto|exact Sg].
Qed.
(** -d: the commands in order, once each *)
Lemma dump_spec cs : forall w x w', debug_dump cs w = Done (Ok x) w' -> exists rs, asked (trace w') = asked (trace w) ++ map (fun p => ask (fst p) (Lines (snd p))) rs /\ x = rs /\ map fst rs = cs.
Proof.
  induction cs as [|c cs IH]; intros w x w' H; cbn [debug_dump] in H.
  - unfold ret in H. injection H as <- <-. exists []. rewrite app_nil_r. auto.
  - apply bind_ok in H as (ls & w1 & W & H). apply bind_ok in H as (more & w2 & H2 & H). unfold ret in H. injection H as <- <-. apply IH in H2 as (rs & T & -> & M).
    assert (W' : asked (trace w1) = asked (trace w) ++ [ask c (Lines ls)]).
    { clear - W. pose proof (write_noparse_any c CR w) as N. unfold write_noparse in W. destruct (script w) as [|r rest]; [congruence|].
      destruct N as (y & W2 & N). rewrite W2 in W. injection W as -> <-. cbn [trace]. rewrite asked_settled. destruct r as [[|l ls']|ls']; try contradiction. subst. reflexivity. }
    exists ((c, ls) :: rs). split; [rewrite T, W', <- app_assoc; reflexivity|]. cbn. rewrite M. auto.
Qed.
Lemma dump_commands w x w' : debug_dump debug_commands w = Done (Ok x) w' ->
  asked (trace w') = asked (trace w) ++ map (fun p => ask (fst p) (Lines (snd p))) x /\
  map fst x = map lit ["ATI"; "AT+CGMI"; "AT+CGMM"; "AT+CGMR"; "AT+CFUN=?"; "AT+WIND=?"; "AT+WIND?"; "AT+CPMS=?"; "AT+CNMI=?"; "AT+CVHU=?"; "AT+CSMP?"; "AT+GCAP"; "AT+CPIN?"; "AT+CLAC"]%string.
Proof. intro H. apply dump_spec in H as (rs & T & -> & M). split; auto. Qed.
