(** The lemmas behind C41-C45, in the form in which the properties state them. *)
From Verif Require Import Base PduModel ModemCore ModemSpec WriteProofs MonadProofs SmsModel SendSpec TrackSpec SendProofs StoreLemmas TrackProofs.

Lemma outcome_fun data r x y : outcome data r x -> outcome data r y -> x = y.
Proof.
  intros O1 O2. destruct (reply_cases data r) as [(c & B)|[NB _]].
  - exfalso. destruct B as (Bc & ls & line & k & -> & C). remember (Lines (ls ++ [line])) as r eqn:Er.
    destruct O1 as [|l ls0| |ls0 line0 G|ls0 line0 k0 c0 e C0 NBc X|ls0 line0 G NC|ls0]; injection Er as Er || discriminate Er;
    try (destruct ls; discriminate Er); apply app_inj_tail in Er as [El En]; subst.
    + apply (proj1 G). eapply cm_is_error; eauto.
    + destruct (cm_unique _ _ _ _ _ C C0) as [-> ->]. auto.
    + eapply NC; eauto.
    + destruct C as (_ & ds & nl & E & _). discriminate.
  - pose proof (write_outcome data [] r [] modem_init [] x NB O1) as W1. rewrite (write_outcome data [] r [] modem_init [] y NB O2) in W1. congruence.
Qed.
Lemma never_error data term w ls w' : write_with data term true w = Done (Ok ls) w' -> exists before line, ls = before ++ [line] /\ good_line line.
Proof. intro H. apply write_done in H as (busy & codes & r & E & _ & _ & O & _). apply outcome_ok in O as [_ H]. auto. Qed.
Lemma judged data term r rest m tr x : not_busy r ->
  outcome data r x <-> exists w', write_with data term true (mk_world m (r :: rest) tr) = Done x w'.
Proof.
  intro NB. split.
  - intro O. unfold write_with. cbn [script dev trace]. rewrite (write_outcome _ _ _ _ _ _ x NB O). eauto.
  - intros [w' H]. destruct (reply_cases data r) as [(c & B)|[_ (y & O)]]; [exfalso; eapply NB; eauto|].
    unfold write_with in H. cbn [script dev trace] in H. rewrite (write_outcome _ _ _ _ _ _ y NB O) in H. congruence.
Qed.
Lemma unparsed data term w x w' : write_with data term false w = Done x w' -> exists r rest, script w = r :: rest /\
  match x with
  | Ok ls => r = Lines ls /\ ls <> []
  | Err e => (r = Lines [] /\ e = IndexError) \/ (exists ls d, r = NoReply ls /\ e = TimeoutException d)
  end.
Proof.
  intro H. pose proof (write_noparse_any data term w) as N. destruct (script w) as [|r rest]; [congruence|].
  exists r, rest. split; auto. destruct N as (y & W & N). rewrite W in H. injection H as -> _. destruct r as [[|l ls]|ls], x as [a|e]; try contradiction; subst; auto.
  - split; auto. discriminate.
  - right. destruct N as [d ->]. eauto.
Qed.

Lemma retried data term busy codes last rest m tr x : all_busy busy codes -> not_busy last -> outcome data last x ->
  exists w', write_with data term true (mk_world m (busy ++ last :: rest) tr) = Done x w' /\
    script w' = rest /\ trace w' = tr ++ attempts (data ++ term) (writeWait m) busy last /\
    writes_of (attempts (data ++ term) (writeWait m) busy last) = repeat (data ++ term) (S (length busy)) /\
    writeWait (dev w') = match codes, x with
      | [], _ => writeWait m
      | c :: _, Ok _ => if c =? 515 then 1 else 0
      | _, Err _ => writeWait m + 2 * Z.of_nat (length busy)
      end /\ dev w' = set_writeWait (writeWait (dev w')) m.
Proof.
  intros B NB O. unfold write_with. cbn [script dev trace]. rewrite (write_retries data term busy codes B last x) by auto. eexists. split; [reflexivity|]. cbn [script trace dev].
  split; [auto|]. split; [auto|]. split; [apply attempts_writes|]. split; [|reflexivity].
  assert (L : length codes = length busy) by (clear - B; induction B; cbn; auto). cbn. unfold wait_after. destruct x, codes; auto. rewrite L. auto.
Qed.
Lemma busy_forever data term busy codes m tr : all_busy busy codes -> exists w', write_with data term true (mk_world m busy tr) = Stuck w' /\ script w' = [].
Proof. intro B. apply (write_stuck data term busy codes B m tr). Qed.

Lemma counter refs m : sends modem_init refs m ->
  0 <= smsRef m <= 255 /\ smsRef m = match rev refs with [] => 0 | n :: _ => if n <? 255 then n + 1 else 0 end.
Proof. intro H. apply counter_inv in H as (A & B & _); [auto|cbn; lia]. Qed.

Lemma concluded_final m m' d t wt y x : concluded m m' d t wt y x -> final_answer y x.
Proof.
  destruct 1; cbn; eauto.
  - intros n (line & (b & c & -> & S & _) & _). apply Forall_app in H as [_ H]. inversion H; auto.
  - intros n (line' & F & N). rewrite (first_cmgs_unique _ _ _ F H) in N. eapply H0; eauto.
Qed.
Lemma sends_parts destination text fl wt w pdus : smsTextMode (dev w) = false ->
  encodeSmsSubmitPdu destination text (smsRef (dev w)) VNone None true false fl = Ok pdus ->
  match sendSms destination text fl wt w with
  | Done x w' => exists evs y, trace w' = trace w ++ evs /\ transmits pdus evs y /\ final_answer y x
  | Stuck w' => exists evs, trace w' = trace w ++ evs /\ transmitting pdus evs
  end.
Proof.
  intros T E. pose proof (send_pdu_mode destination text fl wt w pdus T E) as H. destruct (sendSms _ _ _ _ _) as [x w'|w']; auto.
  destruct H as (evs & y & Ht & Tr & C). exists evs, y. repeat split; auto. eapply concluded_final; eauto.
Qed.
Lemma sent_object d t fl wt w obj w' : sendSms d t fl wt w = Done (Ok obj) w' ->
  exists a n, In (Lines a) (script w) /\ reference_in a n /\ nth_error (sentObjs (dev w')) obj = Some (mk_sent d t n None).
Proof.
  intro H. pose proof (sendSms_state d t fl wt w) as X. rewrite H in X. destruct X as (a & n & I & R & -> & _ & X & _).
  exists a, n. rewrite X. repeat split; auto. apply nth_error_snoc.
Qed.

Lemma delivery hs m k r later : happens modem_init hs m -> sent_as k hs = Some (r, later) ->
  exists s, nth_error (sentObjs m) k = Some s /\ s_reference s = r /\ status_for (verdict_for r later None) (sent_status s).
Proof.
  intros H S. apply happens_tracked in H as (_ & O & _); auto. destruct (O _ _ _ S) as (d & t & N).
  eexists. split; [exact N|]. split; auto. unfold status_for, sent_status. cbn [s_report]. destruct (verdict_for r later None) as [c|]; auto.
  destruct (Z.eqb_spec c 0); [subst; auto|]. right. right. eauto.
Qed.
Lemma delivery_count hs m : happens modem_init hs m -> forall k, nth_error (sentObjs m) k <> None <-> sent_as k hs <> None.
Proof. intros H k. apply happens_tracked in H as (L & _ & _); auto. rewrite sent_as_lt, nth_error_Some, L. tauto. Qed.
