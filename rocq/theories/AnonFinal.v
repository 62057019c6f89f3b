(** A message that cannot be decoded, in listings and notifications. *)
From Verif Require Import Base RegexModel PduModel ModemCore ModemSpec WriteProofs MonadProofs SendSpec SendProofs TrackSpec CoverageSpec CoverageProofs UtilProofs
  SmsModel StoreSpec StoreLemmas ReadProofs StoreProofs ListSpec ListProofs ProcessProofs AnonSpec.

Lemma list_pdu_wf lines es : well_formed lines es -> forall more l, list_pdu (lines ++ more) None l = list_pdu more None (ext l es).
Proof.
  induction 1 as [|line lines es N W IH|head i st pdu d s lines es H D Ms W IH]; intros more l; cbn [app].
  - rewrite ext_nil. auto.
  - cbn [list_pdu]. apply cmgl_nomatch in N. rewrite N. auto.
  - apply cmgl_match in H as (m & is & ss & E & G1 & G2 & Di & Ds & -> & ->). cbn [list_pdu].
    rewrite E, G1, G2, (py_int_digits _ Di), (py_int_digits _ Ds). cbn [bind]. rewrite D. apply sms_of_pdu_iff in Ms. rewrite Ms. cbn [bind]. rewrite IH, ext_cons. auto.
Qed.
Lemma list_breaks answer e : breaks_off answer e -> list_pdu answer None ([], []) = Err e.
Proof.
  intros [lines es head i st bad e' rest W H D N]. rewrite (list_pdu_wf _ _ W). apply cmgl_match in H as (m & is & ss & E & G1 & G2 & Di & Ds & -> & ->). cbn [list_pdu].
  rewrite E, G1, G2, (py_int_digits _ Di), (py_int_digits _ Ds). cbn [bind]. rewrite D. destruct e'; auto. congruence.
Qed.
Lemma listing_breaks_at status memory delete w x w' : 0 <= status -> smsTextMode (dev w) = false -> listStoredSms status memory delete w = Done x w' ->
  exists evs, trace w' = trace w ++ evs /\
  (((exists e, x = Err e) /\ failures evs) \/
   exists e0 e1 e2 p answer, evs = e0 ++ e1 ++ e2 /\ selected memory (dev w) e0 /\ p = str_of_Z status /\
     exchange (lit "AT+CMGL=" ++ p) [13] e1 (Ok answer) /\ forall e, breaks_off answer e -> x = Err e /\ e2 = []).
Proof.
  intros Hs Md H. pose proof (quiet_list status memory delete w) as (ev & Tq & _). rewrite H in Tq. cbn [last_of] in Tq.
  rewrite list_eq in H. apply bind_done in H as [([] & w1 & H1 & H)|(e & H1 & ->)].
  2:{ apply select_run in H1 as (e0 & T0 & _ & S0). exists e0. split; auto. left. eauto. }
  apply select_run in H1 as (e0 & T0 & M0 & S0). unfold mbind at 1, get in H. rewrite M0, Md in H. cbn [query_of] in H.
  apply bind_done in H as [(l & w2 & H2 & H)|(e & H2 & ->)].
  - apply bind_done in H2 as [(answer & w3 & H2 & H3)|(e & H2 & F)]; [|discriminate]. apply exchange_of in H2 as (e1 & T1 & E1).
    unfold lift in H3. injection H3 as H3 <-. cbn [parse_list] in H3.
    assert (X : exists e2, ev = e0 ++ e1 ++ e2).
    { assert (K : exists e2, trace w' = trace w3 ++ e2).
      { match type of H with mbind ?c ?k w3 = _ => assert (Q : quiet (mbind c k)) end.
        { apply quiet_bind; [|intros _; quiet_tac]. destruct delete; [|quiet_tac]. unfold deleteMultipleStoredSms.
          destruct (status =? 4); [|apply quiet_each]. destruct ((0 <? 4) && (4 <=? 4)); [|quiet_tac]. apply quiet_bind; [apply quiet_select|intros _; quiet_tac]. }
        destruct (Q w3) as (e2 & T2 & _). rewrite H in T2. cbn [last_of] in T2. eauto. }
      destruct K as (e2 & K). exists e2. rewrite K, T1, T0, <- !app_assoc in Tq. apply app_inv_head in Tq. auto. }
    destruct X as (e2 & ->). exists (e0 ++ e1 ++ e2). split; auto. right. exists e0, e1, e2, (str_of_Z status), answer. split; auto. split; auto.
    split; auto. split; auto. intros e B. apply list_breaks in B. congruence.
  - apply bind_done in H2 as [(answer & w3 & H2 & H3)|(e2 & H2 & [= <-])]; apply exchange_of in H2 as (e1 & T1 & E1).
    + unfold lift in H3. injection H3 as H3 <-. cbn [parse_list] in H3. exists (e0 ++ e1). rewrite T1, T0, app_assoc. split; auto. right.
      exists e0, e1, [], (str_of_Z status), answer. rewrite app_nil_r. split; auto. split; auto. split; auto. split; auto.
      intros e' B. apply list_breaks in B. split; auto. congruence.
    + exists (e0 ++ e1). rewrite T1, T0, app_assoc. split; auto. left. split; [eauto|]. apply failures_app. right. eapply exchange_failures; eauto.
Qed.
Lemma listing_breaks status memory delete w x w' : 0 <= status -> smsTextMode (dev w) = false -> listStoredSms status memory delete w = Done x w' ->
  exists evs, trace w' = trace w ++ evs /\
  (((exists e, x = Err e) /\ failures evs) \/
   exists e0 e1 e2 p answer, evs = e0 ++ e1 ++ e2 /\ selected memory (dev w) e0 /\ decimal status p /\
     exchange (lit "AT+CMGL=" ++ p) [13] e1 (Ok answer) /\ forall e, breaks_off answer e -> x = Err e /\ e2 = []).
Proof.
  intros Hs Md H. apply (listing_breaks_at _ _ _ _ _ _ Hs Md) in H as (evs & T & H). exists evs. split; auto.
  destruct H as [H|(e0 & e1 & e2 & p & answer & -> & S0 & -> & E1 & B)]; [auto|right].
  exists e0, e1, e2, (str_of_Z status), answer. split; auto. split; auto. split; [apply str_of_Z_decimal; auto|]. auto.
Qed.
Lemma process_breaks unreadOnly w x w' : smsTextMode (dev w) = false -> processStoredSms unreadOnly w = Done x w' ->
  exists evs, trace w' = trace w ++ evs /\
  (((exists e, x = Err e) /\ failures evs) \/
   exists e1 e2 answer, evs = e1 ++ e2 /\ exchange (lit "AT+CMGL=" ++ (if unreadOnly then lit "0" else lit "1")) [13] e1 (Ok answer) /\
     forall e, breaks_off answer e -> x = Err e /\ e2 = []).
Proof.
  intros Md H. set (st := if unreadOnly then 0 else 1).
  assert (Hst : 0 <= st) by (unfold st; destruct unreadOnly; lia).
  assert (P : str_of_Z st = if unreadOnly then lit "0" else lit "1") by (unfold st; destruct unreadOnly; reflexivity).
  assert (E : exists sts, processStoredSms unreadOnly w = process_states (st :: sts) w /\ Forall (fun s => 0 <= s) sts).
  { unfold st. destruct unreadOnly; eexists; (split; [reflexivity|repeat constructor; lia]). }
  destruct E as (sts & E & Fs). rewrite E in H. clear E. cbn [process_states] in H.
  apply bind_done in H as [(msgs & w1 & HL & H)|(e & HL & ->)]; apply (listing_breaks_at _ _ _ _ _ _ Hst Md) in HL as (ev & T & [((e' & X) & F)|(e0 & e1 & e2 & p & answer & -> & S0 & D & E1 & B)]).
  - discriminate.
  - assert (e0 = []) as -> by (destruct S0 as [[-> _]|(mem & a & X & _)]; [auto|discriminate]). cbn [app] in T. rewrite D, P in E1. clear D.
    unfold mbind at 1 in H. rewrite callback_run in H.
    match type of H with process_states sts ?w2 = _ => pose proof (states_run sts Fs w2) as R; rewrite H in R end.
    assert (K : exists e3, trace w' = trace w1 ++ e3).
    { destruct x as [u|e]; [destruct R as (e3 & T3 & _)|destruct R as (? & ? & a & b & _ & T3 & _)]; cbn [trace last_of] in T3; rewrite T3, <- app_assoc; eauto. }
    destruct K as (e3 & K). exists (e1 ++ e2 ++ e3). rewrite K, T, <- !app_assoc. split; auto. right. exists e1, (e2 ++ e3), answer. split; auto. split; auto.
    intros e Bo. apply B in Bo as [X _]. discriminate.
  - exists ev. split; auto. left. eauto.
  - assert (e0 = []) as -> by (destruct S0 as [[-> _]|(mem & a & X & _)]; [auto|discriminate]). cbn [app] in T. rewrite D, P in E1. clear D.
    exists (e1 ++ e2). split; auto. right. exists e1, e2, answer. split; auto. split; auto. intros e' Bo. apply B in Bo as [[= ->] ->]. auto.
Qed.

(** a single message *)
Lemma received_breaks mem ds line w x w' : indication (lit "+CMTI:") mem ds line -> smsTextMode (dev w) = false -> handleSmsReceived line w = Done x w' ->
  exists evs, trace w' = trace w ++ evs /\
  (((exists e, x = Err e) /\ failures evs) \/
   exists e0 e1 e2 answer, evs = e0 ++ e1 ++ e2 /\ selected (Some mem) (dev w) e0 /\ exchange (lit "AT+CMGR=" ++ ds) [13] e1 (Ok answer) /\
     forall head stat bad more e, answer = head :: bad :: more -> pdu_header head stat -> decodeSmsPdu bad = Err e -> x = Err e /\ e2 = []).
Proof.
  intros I Md H. apply indication_match in I as (t & rest & E). rewrite <- cmti_is in E.
  unfold handleSmsReceived in H. rewrite E in H. unfold group in H. cbn [groups fst snd nth Nat.sub] in H.
  assert (B : forall answer head stat bad more e, answer = head :: bad :: more -> pdu_header head stat -> decodeSmsPdu bad = Err e -> parse_cmgr_pdu answer = Err e).
  { intros answer head stat bad more e -> Hh D. apply pdu_header_match in Hh as (? & m & M & _). cbn [parse_cmgr_pdu]. rewrite M, D. auto. }
  apply bind_done in H as [(s & w1 & H1 & H)|(e & H1 & ->)]; unfold readStoredSms in H1; apply bind_done in H1 as [([] & w2 & H2 & H1)|(e' & H2 & X)].
  - apply select_run in H2 as (e0 & T0 & M0 & S0). apply bind_done in H1 as [(answer & w3 & H3 & H1)|(e & _ & X)]; [|discriminate].
    pose proof (write_frame _ _ _ _ _ H3) as [v D]. apply exchange_of in H3 as (e1 & T1 & E1). unfold mbind, get, lift in H1. injection H1 as H1 <-.
    assert (M3 : smsTextMode (dev w3) = false) by (rewrite D; cbn; congruence). rewrite M3 in H1.
    assert (K : exists e2, trace w' = trace w3 ++ e2).
    { apply bind_done in H as [([] & w4 & H4 & H)|(e & H4 & ->)]; pose proof (quiet_delete ds None w3) as (e2 & T2 & _); rewrite H4 in T2; cbn [last_of] in T2; [|eauto].
      injection H as _ <-. cbn [trace]. rewrite T2, <- app_assoc. eauto. }
    destruct K as (e2 & K). exists (e0 ++ e1 ++ e2). rewrite K, T1, T0, <- !app_assoc. split; auto. right. exists e0, e1, e2, answer. split; auto. split; auto. split; auto.
    intros head stat bad more e Ea Hh Db. rewrite (B _ _ _ _ _ _ Ea Hh Db) in H1. discriminate.
  - discriminate.
  - apply select_run in H2 as (e0 & T0 & M0 & S0). apply bind_done in H1 as [(answer & w3 & H3 & H1)|(e' & H3 & [= <-])].
    + pose proof (write_frame _ _ _ _ _ H3) as [v D]. apply exchange_of in H3 as (e1 & T1 & E1). unfold mbind, get, lift in H1. injection H1 as H1 <-.
      assert (M3 : smsTextMode (dev w3) = false) by (rewrite D; cbn; congruence). rewrite M3 in H1.
      exists (e0 ++ e1). rewrite T1, T0, app_assoc. split; auto. right. exists e0, e1, [], answer. rewrite app_nil_r. split; auto. split; auto. split; auto.
      intros head stat bad more e' Ea Hh Db. rewrite (B _ _ _ _ _ _ Ea Hh Db) in H1. split; auto. congruence.
    + apply exchange_of in H3 as (e1 & T1 & E1). exists (e0 ++ e1). rewrite T1, T0, app_assoc. split; auto. left. split; [eauto|]. apply failures_app. right. eapply exchange_failures; eauto.
  - apply select_run in H2 as (e0 & T0 & _ & S0). exists e0. split; auto. left. split; eauto.
Qed.
