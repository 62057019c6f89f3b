(** Proofs about sendsms.py and the line it reads. *)
From Verif Require Import Base ModemCore ModemSpec WriteProofs MonadProofs SmsModel SendSpec TrackSpec CoverageSpec CoverageProofs ConnectModel ConnectSpec ConnectProofs SetupSpec ToolModel ToolSpec ToolProofs MainModel MainSpec.

Lemma main_no_port python3 pin deliver d k timer w : main python3 None pin deliver d k timer w =
  Done (Ok (Over [Complain (lit "Error: No port specified. Please specify the port to which the GSM modem is connected using the -i argument.")] (Ends (Exits 1)))) w.
Proof. reflexivity. Qed.
Theorem main_typed port pin deliver d text timer w : main false (Some port) pin deliver d (Types text) timer w = whole (sendsms port pin deliver d text timer w).
Proof.
  unfold main, sendsms, start_modem, raw_input. rewrite !attempt_done. destruct (connect pin w) as [[[]|x] w1|w1]; [| |reflexivity]; [|destruct x; reflexivity].
  rewrite !attempt_done. destruct (waitForNetworkCoverage timer w1) as [[ss|x] w2|w2]; [| |reflexivity]; [|destruct x; reflexivity].
  rewrite !attempt_done. destruct (sendSms d text false deliver w2) as [[obj|x] w3|w3]; [| |reflexivity]; [reflexivity|destruct x; reflexivity].
Qed.

Lemma raw_none python3 k : nothing_read python3 k -> raw_input python3 k = inr (if python3 then NameError else EofError).
Proof. intros [->| ->]; [reflexivity|]. destruct python3; reflexivity. Qed.
Theorem main_no_message python3 port pin deliver d k timer sc : nothing_read python3 k ->
  no_message (asked (trace (last_of (main python3 port pin deliver d k timer (start modem_init sc))))).
Proof.
  intro N. destruct port as [port|]; [|constructor]. unfold main. rewrite attempt_done, (raw_none _ _ N). destruct (quiet_connect pin (start modem_init sc)) as (eA & TA & QA). cbn [trace start app] in TA.
  destruct (connect pin (start modem_init sc)) as [[[]|y] w0|w0] eqn:Co; cbn [last_of] in TA; subst eA; apply quiet_asked in QA; auto.
  2:{ destruct y; exact QA. }
  rewrite attempt_done. destruct (only_coverage timer w0) as (B & T & Q). assert (NB : no_message (asked B)) by (apply quiet_asked; eapply Forall_impl; [|exact Q]; intros; apply network_quiet; auto).
  assert (Q1 : no_message (asked (trace w0 ++ B))) by (rewrite asked_app; apply Forall_app; auto). rewrite <- T in Q1.
  destruct (waitForNetworkCoverage timer w0) as [[ss|y] w1|w1]; cbn [last_of] in *; auto. destruct y; exact Q1.
Qed.
Lemma unlocked_app pin a b : unlocked pin a -> unlocked pin (a ++ b).
Proof. intros [(rq & I & R)|(p & ls & E & I & G)]; [left; exists rq|right; exists p, ls]; rewrite in_app_iff; auto. Qed.
Theorem main_unread python3 port pin deliver d k timer sc x w : nothing_read python3 k -> main python3 (Some port) pin deliver d k timer (start modem_init sc) = Done x w ->
  exists outs e, x = Ok (Over outs e) /\ not_read python3 port pin (trace w) outs e.
Proof.
  intro N. unfold main. rewrite attempt_done, (raw_none _ _ N).
  destruct (connect pin (start modem_init sc)) as [[[]|y] w0|w0] eqn:Co; [| |discriminate].
  2:{ intro H. destruct y; unfold ret in H; injection H as <- <-; do 2 eexists; (split; [reflexivity|]); first [apply nr_pin_required|apply nr_pin_wrong|apply nr_not_connected]. }
  pose proof (connect_ok pin modem_init sc w0 Co) as U. rewrite attempt_done. destruct (only_coverage timer w0) as (B & T & Q).
  destruct (waitForNetworkCoverage timer w0) as [[ss|y] w1|w1] eqn:Cv; cbn [last_of] in T; [| |discriminate].
  2:{ assert (U1 : unlocked pin (asked (trace w1))) by (rewrite T, asked_app; apply unlocked_app; auto).
    intro H. destruct y; unfold ret in H; injection H as <- <-; do 2 eexists; (split; [reflexivity|]); first [apply nr_no_signal; exact U1|apply nr_no_network; exact U1]. }
  intro H. unfold ret in H. injection H as <- <-. do 2 eexists. split; [reflexivity|]. apply coverage_returns in Cv as (S & r1 & W & r2 & _ & H1 & H2 & H3 & H4 & E).
  eapply nr_line; [exact E|exact U|]. exists S, r1, W, r2, ss. auto.
Qed.
Lemma announced pdus evs a n : transmits pdus evs (Ok a) -> reference_in a n -> ~ no_message (asked evs).
Proof.
  intros X (line & (bf & af & E & _) & _) N. inversion X as [ans|p ps ans c t e1 e2 e3 a1 a2 x (ds & _ & ->) _ X1 _ _| |]; subst; [destruct bf; discriminate|].
  destruct X1 as (wait & busy & codes & r & -> & _). rewrite asked_app, asked_attempts in N. apply Forall_app in N as [N _]. rewrite Forall_forall in N.
  apply (N ((lit "AT+CMGS=" ++ ds) ++ [13], Some r)); [apply in_map_iff; exists r; split; auto; apply in_or_app; right; left; auto|]. cbn [fst]. rewrite <- app_assoc. exists (61 :: ds ++ [13]). reflexivity.
Qed.
Theorem main_instead python3 port pin deliver d text k timer sc outs obj w : nothing_read python3 k ->
  sendsms port pin deliver d text timer (start modem_init sc) = Done (Ok (SentOff outs obj)) w ->
  exists w' evs, main python3 (Some port) pin deliver d k timer (start modem_init sc) = Done (Ok (Over [hello port; checking; asking] (if python3 then NameError else EofError))) w' /\
    trace w = trace w' ++ evs /\ no_message (asked (trace w')) /\ ~ no_message (asked evs).
Proof.
  intros N H. assert (Sent := H). apply sendsms_ends in Sent. cbv iota beta in Sent. destruct Sent as (_ & _ & before & tevs & pdus & a & n & Tr & NM & En & X & Ref & _).
  pose proof (main_no_message python3 (Some port) pin deliver d k timer sc N) as Q.
  assert (exists w', main python3 (Some port) pin deliver d k timer (start modem_init sc) = Done (Ok (Over [hello port; checking; asking] (if python3 then NameError else EofError))) w' /\ exists evs, trace w = trace w' ++ evs) as (w' & Mn & evs & T).
  { clear - N H. unfold sendsms, start_modem in H. unfold main. rewrite attempt_done in H. rewrite attempt_done. rewrite (raw_none _ _ N). destruct (connect pin (start modem_init sc)) as [[[]|y] w0|w0] eqn:Co; [| |discriminate H]; [|destruct y; unfold ret in H; discriminate H].
    rewrite attempt_done in H. rewrite attempt_done. destruct (waitForNetworkCoverage timer w0) as [[ss|y] w1|w1] eqn:Cv; [| |discriminate H]; [|destruct y; unfold ret in H; discriminate H].
    exists w1. split; [reflexivity|]. rewrite attempt_done in H. assert (M : smsTextMode (dev w1) = false). { pose proof (covered_state _ _ _ _ _ _ Co Cv) as K. unfold sending_state in K. congruence. }
    destruct (send_nc d text false deliver w1 M) as (C & Tc & _). exists C. destruct (sendSms d text false deliver w1) as [[o|y] w2|w2]; [| |discriminate H]; [|destruct y; unfold ret in H; discriminate H]. unfold ret in H. injection H as <- <- <-. exact Tc. }
  exists w', evs. rewrite Mn in Q. cbn [last_of] in Q. split; auto. split; auto. split; auto.
  intro NE. assert (NA : no_message (asked (trace w))) by (rewrite T, asked_app; apply Forall_app; auto). rewrite Tr, asked_app in NA. apply Forall_app in NA as [_ NA]. exact (announced _ _ _ _ X Ref NA).
Qed.
Theorem main_before python3 port pin deliver d k timer w outs e w' : nothing_read python3 k -> main python3 (Some port) pin deliver d k timer w = Done (Ok (Over outs (Ends e))) w' ->
  forall text, sendsms port pin deliver d text timer w = Done (Ok (Ended outs e)) w'.
Proof.
  intros N H text. unfold main in H. unfold sendsms, start_modem. rewrite attempt_done in H. rewrite attempt_done. rewrite (raw_none _ _ N) in H.
  destruct (connect pin w) as [[[]|y] w0|w0]; [| |discriminate H]; [|destruct y; unfold ret in *; injection H as <- <- <-; reflexivity].
  rewrite attempt_done in H. rewrite attempt_done. destruct (waitForNetworkCoverage timer w0) as [[ss|y] w1|w1]; [| |discriminate H]; [|destruct y; unfold ret in *; injection H as <- <- <-; reflexivity].
  unfold ret in H. destruct python3; discriminate H.
Qed.
