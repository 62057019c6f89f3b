(** Proofs about waiting for a delivery report. *)
From Verif Require Import Base RegexModel RegexProofs UtilModel PduModel ModemCore ModemSpec WriteProofs MonadProofs SmsModel SendSpec SendProofs LangProofs CoverageSpec CoverageProofs ReadProofs ModemFinal TrackSpec TrackProofs CallModel NotifyModel ConnectModel ConnectSpec ConnectProofs CentreProofs UssdModel StoreLemmas WaitSpec.

Definition ev (m : modem) := reportEvent m.
Lemma ev_sms line : keeps ev (handleSmsReceived line).
Proof. unfold handleSmsReceived. keeps_tac; first [apply keeps_read|apply keeps_delete]; reflexivity. Qed.
Lemma ev_ussd lines : keeps ev (handleUssd lines).
Proof. unfold handleUssd. keeps_tac. Qed.
Lemma ev_answered n b : keeps ev (set_answered n b).
Proof. unfold set_answered, change_call. keeps_tac. Qed.
Lemma ev_add c : keeps ev (add_call c).
Proof. unfold add_call. keeps_tac. Qed.
Lemma ev_each es number found : keeps ev (ring_each es number found).
Proof. revert found. induction es as [|[k n] es IH]; intro found; cbn [ring_each]; keeps_tac; auto. Qed.
Lemma ev_ring lines : keeps ev (handleIncomingCall lines).
Proof. unfold handleIncomingCall. keeps_all; first [apply ev_each|apply ev_add|idtac]. Qed.
Lemma ev_initiated g i t : keeps ev (handleCallInitiated g i t).
Proof. unfold handleCallInitiated, int_of. keeps_tac. Qed.
Lemma ev_call_answered g i : keeps ev (handleCallAnswered g i).
Proof. unfold handleCallAnswered, answered_by_id, int_of. keeps_tac; apply ev_answered. Qed.
Lemma ev_ended g i f : keeps ev (handleCallEnded g i f).
Proof. unfold handleCallEnded, int_of, change_call. keeps_tac; apply ev_answered. Qed.
Lemma some_inj {A} (a b : A) : Some a = Some b -> a = b. Proof. congruence. Qed.
Lemma ev_update t line k : try_updates (call_updates t) line = Some k -> keeps ev k.
Proof.
  intro H. unfold call_updates, handleCallRejected in H. destruct t; cbn [try_updates] in H;
  repeat (destruct (re_match _ line) in H; [apply some_inj in H as <-; first [exact (ev_initiated _ _ _)|exact (ev_call_answered _ _)|exact (ev_ended _ _ _)]|]); discriminate H.
Qed.
Lemma ev_notified all rest : Forall (fun l => ~ starts_with (lit "+CDSI") l) rest -> keeps ev (notify_each all rest).
Proof.
  induction 1 as [|l rest H _ IH]; cbn [notify_each]; [apply keeps_ret|].
  destruct (contains l (lit "RING")); [apply ev_ring|]. destruct (startswith l (lit "+CMTI")); [apply ev_sms|]. destruct (startswith l (lit "+CUSD")); [apply ev_ussd|].
  destruct (startswith l (lit "+CDSI")) eqn:E; [apply startswith_app in E; contradiction|].
  apply keeps_bind; [apply keeps_get|]. intro m. destruct (try_updates (call_updates (callUpdates m)) l) eqn:T; [eapply ev_update; eauto|exact IH].
Qed.
Lemma ev_send d t fl : keeps ev (sendSms d t fl false).
Proof.
  unfold sendSms. apply keeps_bind; [apply keeps_get|]. intro m. apply keeps_bind.
  - destruct (smsTextMode m); [unfold send_text; keeps_tac|]. apply keeps_bind; [apply keeps_lift|]. intro pdus. generalize (@None str). induction pdus as [|p pdus IH]; intro r; cbn [send_pdus]; keeps_tac. apply IH.
  - intro r. keeps_tac.
Qed.
Lemma keeps_after {A X} (f : modem -> X) (c : M A) w : keeps f c -> f (state_after (c w)) = f (dev w).
Proof. intro K. specialize (K w). destruct (c w); exact K. Qed.
(** the handler of a status report *)
Lemma report_event line mem idx w : indication (lit "+CDSI:") mem idx line ->
  match handleSmsStatusReport line w with
  | Done (Ok _) w' => exists st r nb t1 t2 code w1 w2, readStoredSms idx (Some mem) w = Done (Ok (Report st r nb t1 t2 code)) w1 /\ deleteStoredSms idx None w1 = Done (Ok tt) w2 /\
      ev (dev w') = option_map (fun _ => true) (ev (dev w)) /\ script w' = script w2 /\ trace w' = trace w2 ++ match ev (dev w) with None => [EReport (Report st r nb t1 t2 code)] | Some _ => [] end
  | o => ev (state_after o) = ev (dev w)
  end.
Proof.
  intro I. apply indication_match in I as (t & rest & E). rewrite <- cdsi_is in E. unfold handleSmsStatusReport. rewrite E.
  unfold group. cbn [groups fst snd nth Nat.sub]. unfold mbind at 1.
  pose proof (keeps_read ev idx (Some mem) ltac:(reflexivity) ltac:(reflexivity) w) as K.
  destruct (readStoredSms idx (Some mem) w) as [[rep|e] w1|w1]; cbn [last_of state_after] in *; auto. unfold mbind at 1.
  pose proof (keeps_delete ev idx None ltac:(reflexivity) ltac:(reflexivity) w1) as K2.
  destruct (deleteStoredSms idx None w1) as [[[]|e] w2|w2] eqn:De; cbn [last_of state_after] in *; [|congruence|congruence]. rewrite K in K2.
  destruct rep as [st nb tm tx sm|st r nb t1 t2 code]; [cbn [raise state_after]; congruence|].
  destruct w2 as [m2 sc2 tr2]. cbn [dev] in *. unfold ev in *. unfold mbind, get, modify, tell, ret. cbn [dev].
  destruct (zget (sentTable m2) r) as [obj|]; cbn [dev reportEvent set_sentObjs]; rewrite K2;
  destruct (reportEvent (dev w)); exists st, r, nb, t1, t2, code, w1, (mk_world m2 sc2 tr2); cbn; rewrite ?app_nil_r; auto 6.
Qed.
Lemma meanwhile_event m reps m' : meanwhile m reps m' -> ev m' = match ev m with None => None | Some b => Some (b || negb (length reps =? 0)%nat) end.
Proof.
  induction 1 as [|reps m1 line mem idx sc st r nb t1 t2 code w1 w _ IH I R H|reps m1 line sc _ IH H|reps m1 lines sc _ IH F|reps m1 d t fl sc _ IH].
  - destruct (ev m) as [[]|]; auto.
  - pose proof (report_event line mem idx (start m1 sc) I) as X. rewrite H in X. destruct X as (? & ? & ? & ? & ? & ? & ? & ? & _ & _ & -> & _). cbn [dev start]. rewrite IH.
    rewrite app_length. destruct (ev m); auto. cbn. rewrite Nat.add_1_r. cbn. rewrite orb_true_r. auto.
  - rewrite <- IH. destruct (CDSI_dec line) as [(mem & idx & I)|NI].
    + destruct H as [H|H]; [|exfalso; eapply H; eauto]. pose proof (report_event line mem idx (start m1 sc) I) as X.
      destruct (handleSmsStatusReport line (start m1 sc)) as [[[]|e] w|w]; [exfalso; eapply H; eauto|exact X|exact X].
    + unfold handleSmsStatusReport. rewrite cdsi_is, indication_nomatch by auto. auto.
  - rewrite <- IH. apply (keeps_after ev (handleNotification lines) (start m1 sc)). apply ev_notified. auto.
  - rewrite <- IH. apply (keeps_after ev (sendSms d t fl false) (start m1 sc)). apply ev_send.
Qed.
Lemma send_waits d t fl m sc obj w : sendSms d t fl true (start m sc) = Done (Ok obj) w -> ev (dev w) = Some false.
Proof.
  intro H. unfold sendSms in H. apply bind_ok in H as (m1 & w1 & _ & H). apply bind_ok in H as (r & w2 & _ & H). destruct r as [line|]; [|discriminate].
  apply bind_ok in H as (ref & w3 & _ & H). unfold mbind, modify, get, ret in H. destruct (255 <? _); cbn in H; injection H as _ <-; reflexivity.
Qed.
Theorem wait_ends d t fl m sc obj w1 reps m2 sc' x w3 : sendSms d t fl true (start m sc) = Done (Ok obj) w1 -> meanwhile (dev w1) reps m2 -> sendSms_wait (start m2 sc') = Done x w3 ->
  x = (match reps with [] => Err (TimeoutException None) | _ => Ok tt end) /\ reportEvent (dev w3) = None /\ trace w3 = [].
Proof.
  intros S M W. apply send_waits in S. apply meanwhile_event in M. rewrite S in M. cbn in M. unfold ev in M. unfold sendSms_wait, mbind, get, modify in W. cbn [dev start] in W. rewrite M in W.
  destruct reps; cbn in W; injection W as <- <-; auto.
Qed.
Lemma told_only {A} (c : M A) w : only (fun e => match e with EReport _ => False | _ => True end) c -> exists evs, trace (last_of (c w)) = trace w ++ evs /\ told_reports evs = [].
Proof. intro O. destruct (O w) as (evs & T & F). exists evs. split; auto. clear T. induction F as [|e evs H _ IH]; auto. destruct e; cbn; auto; contradiction. Qed.
Theorem report_told line mem idx m sc w : indication (lit "+CDSI:") mem idx line -> handleSmsStatusReport line (start m sc) = Done (Ok tt) w ->
  exists st r nb t1 t2 code w1, readStoredSms idx (Some mem) (start m sc) = Done (Ok (Report st r nb t1 t2 code)) w1 /\
    match reportEvent m with
    | None => told_reports (trace w) = [Report st r nb t1 t2 code] /\ reportEvent (dev w) = None
    | Some _ => told_reports (trace w) = [] /\ reportEvent (dev w) = Some true
    end.
Proof.
  intros I H. pose proof (report_event line mem idx (start m sc) I) as X. rewrite H in X. destruct X as (st & r & nb & t1 & t2 & code & w1 & w2 & R & De & E & _ & T).
  exists st, r, nb, t1, t2, code, w1. split; auto. unfold ev in *. cbn [dev start] in *.
  assert (N : told_reports (trace w2) = []).
  { destruct (told_only (readStoredSms idx (Some mem)) (start m sc)) as (e1 & T1 & N1); [unfold readStoredSms, setSmsMemory; only_tac; try (apply only_write; intros; exact Logic.I)|].
    destruct (told_only (deleteStoredSms idx None) w1) as (e2 & T2 & N2); [unfold deleteStoredSms, setSmsMemory; only_tac; try (apply only_write; intros; exact Logic.I)|].
    rewrite R in T1. rewrite De in T2. cbn [last_of trace start app] in T1, T2. rewrite T2, T1. unfold told_reports in *. rewrite flat_map_app, N1, N2. auto. }
  rewrite T, E. unfold told_reports in *. rewrite flat_map_app, N. destruct (reportEvent m); auto.
Qed.
