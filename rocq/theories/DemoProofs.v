(** Proofs about the example programs. *)
From Verif Require Import DateModel PduModel PduSpec SmsSpec DeliverSpec SeptetProofs FieldProofs TimeProofs AddressProofs SubmitProofs SubmitFinal DecodeProofs DecodeTotal StoreProofs ModemFinal SubmitSpec NetworkModel NetworkSpec NetworkProofs UssdSpec UssdProofs Base RegexModel UtilModel UtilProofs ModemCore ModemSpec WriteProofs MonadProofs SendSpec SendProofs TrackSpec TrackProofs CoverageSpec CoverageProofs QueryProofs LangProofs SmsModel StoreSpec ListSpec ProcessProofs CallModel CallSpec DtmfProofs UssdModel NotifyModel PollSpec BookSpec BookProofs CallProofs CallFinal CallbackModel CallbackSpec CallbackProofs CallbackFinal CallbackCalls DemoModel DemoSpec.

(** ** Methods of calls, from any state *)
Definition noted (n : nat) (a : client) (evs0 : list event) : Prop := forall w c, nth_error (callObjs (dev w)) n = Some c -> c_answered c = false ->
  on_status a n w = Done (Ok tt) (mk_world (dev w) (script w) (trace w ++ evs0)).
Lemma hangup_marked a n c evs0 w : nth_error (callObjs (dev w)) n = Some c -> noted n a evs0 ->
  match hangup_with a n w with
  | Done x w' => exists evs, trace w' = trace w ++ evs ++ (match x with Ok _ => if c_active c && c_callback c then evs0 else [] | Err _ => [] end) /\ hangs_up n c (book_of (dev w)) x evs (book_of (dev w'))
  | Stuck _ => c_active c = true
  end.
Proof.
  intros Hc Nt. rewrite (hangup_eq _ _ _ _ Hc). pose proof (hushed_nth c n w Hc) as H1. destruct (c_active c) eqn:A; cbn [andb].
  - unfold mbind at 1. destruct (write (lit "ATH") (quiet_hush w n)) as [[a0|e] w1|w1] eqn:W; auto.
    + destruct (write_frame _ _ _ _ _ W) as [v D]. destruct (exchange_of _ _ _ _ _ W) as (evs & T & X). unfold mbind at 1.
      assert (Hc1 : nth_error (callObjs (dev w1)) n = Some (hushed c)) by (rewrite D; auto).
      destruct (flag_run a n false (hushed c) w1 Hc1) as (calls & Ac & Ec & Rn).
      assert (Hc2 : nth_error calls n = Some (now_flagged false (hushed c))) by (apply Ac; auto).
      set (told := if c_callback c then [EStatus n] else []). set (ex := if c_callback c then evs0 else []).
      assert (Rn' : set_answered_with a n false w1 = Done (Ok tt) (mk_world (set_callObjs calls (dev w1)) (script w1) (trace w1 ++ told ++ ex))).
      { rewrite Rn. cbn [hushed c_callback]. unfold told, ex. destruct (c_callback c).
        - erewrite Nt; [|exact Hc2|reflexivity]. cbn [dev script trace]. rewrite <- app_assoc. auto.
        - cbn. rewrite app_nil_r. auto. }
      rewrite Rn'. unfold mbind at 1, change_call, modify. cbn [dev script trace callObjs set_callObjs].
      rewrite (freed_run n (with_active false (now_flagged false (hushed c)))); [|cbn; rewrite update_nth, Nat.eqb_refl, Hc2; auto].
      exists (evs ++ told). cbn [trace dev script]. split.
      * rewrite T. cbn [trace quiet_hush]. rewrite <- !app_assoc. unfold ex. auto.
      * unfold book_of. cbn. rewrite D. cbn.
        apply (hu_done n c (book_of (dev w)) (update calls n (with_active false)) (zdel (activeCalls (dev w)) (c_id c)) evs told a0); auto.
        -- unfold status_told, told. destruct (c_callback c); auto.
        -- rewrite Ec, D. cbn. rewrite !update_update. rewrite (update_ext_at _ n _ (fun c => now_ended (hushed c)) c Hc) by auto. apply update_at.
        -- apply zdel_without.
    + destruct (write_frame _ _ _ _ _ W) as [v D]. destruct (exchange_of _ _ _ _ _ W) as (evs & T & X). exists evs. rewrite T, D, app_nil_r. split; auto.
      apply (hu_failed n c (book_of (dev w)) (update (callObjs (dev w)) n hushed)); auto. apply update_at.
  - rewrite (freed_run n (hushed c)) by auto. exists []. split; [cbn; rewrite app_nil_r; auto|]. cbn.
    apply (hu_ended n c (book_of (dev w)) (update (callObjs (dev w)) n hushed) (zdel (activeCalls (dev w)) (c_id c))); auto; [apply update_at|apply zdel_without].
Qed.
Lemma idle_noted n : noted n idle []. Proof. intros w c _ _. cbn. rewrite app_nil_r. destruct w; auto. Qed.
Lemma hangup_at n c w : nth_error (callObjs (dev w)) n = Some c ->
  match hangup n w with
  | Done x w' => exists evs, trace w' = trace w ++ evs /\ hangs_up n c (book_of (dev w)) x evs (book_of (dev w'))
  | Stuck _ => c_active c = true
  end.
Proof.
  intro H. rewrite <- idle_hangup. pose proof (hangup_marked idle n c [] w H (idle_noted n)) as X. destruct (hangup_with idle n w) as [x w'|w']; auto. destruct X as (evs & T & Hu). exists evs. split; auto.
  rewrite T. destruct x; [destruct (c_active c && c_callback c)|]; rewrite app_nil_r; auto.
Qed.
Lemma answer_at n c w : nth_error (callObjs (dev w)) n = Some c ->
  match answer n w with
  | Done x w' => exists evs, trace w' = trace w ++ evs /\ answers n c (book_of (dev w)) x evs (book_of (dev w'))
  | Stuck _ => c_ringing c = true
  end.
Proof.
  intro Hc. unfold answer, mbind at 1, get at 1. rewrite (the_call_nth _ _ _ Hc).
  destruct (c_ringing c) eqn:A; [|exists []; rewrite app_nil_r; split; auto; apply an_silent; auto].
  unfold mbind at 1. destruct (write (lit "ATA") w) as [[a|e] w1|w1] eqn:W; auto.
  - destruct (write_frame _ _ _ _ _ W) as [v D]. destruct (exchange_of _ _ _ _ _ W) as (evs & T & X). unfold mbind at 1, change_call, modify.
    assert (Hc1 : nth_error (update (callObjs (dev w1)) n (with_ringing false)) n = Some (with_ringing false c)) by (rewrite D; rewrite update_nth, Nat.eqb_refl; cbn; rewrite Hc; auto).
    destruct (told_run n true (mk_world (set_callObjs (update (callObjs (dev w1)) n (with_ringing false)) (dev w1)) (script w1) (trace w1)) _ Hc1) as (told & R & S).
    rewrite R. clear R. cbn [dev trace script]. exists (evs ++ told). rewrite T, D, <- app_assoc. split; auto. cbn.
    apply (an_done n c (book_of (dev w)) (update (update (callObjs (dev w)) n (with_ringing false)) n (with_answered true)) evs told a); auto.
    rewrite update_update. rewrite (update_ext_at _ n _ picked_up c Hc) by auto. apply update_at.
  - destruct (write_frame _ _ _ _ _ W) as [v D]. destruct (exchange_of _ _ _ _ _ W) as (evs & T & X). exists evs. rewrite T, D. split; auto. cbn. apply (an_failed n c (book_of (dev w))); auto.
Qed.
Lemma tones_at n tones c w x w' : nth_error (callObjs (dev w)) n = Some c -> 0 <= c_id c -> tones <> [] -> no_brace tones -> sendDtmfTone n tones w = Done x w' ->
  exists evs, toned (dev w) c tones evs x /\ trace w' = trace w ++ evs /\ same_but_wait (dev w) (dev w').
Proof.
  intros Hc Hid N B H. unfold sendDtmfTone, mbind at 1, get in H. rewrite (the_call_nth _ _ _ Hc) in H. destruct (c_answered c) eqn:An.
  2:{ injection H as <- <-. exists []. rewrite app_nil_r. split; [constructor; auto|]. split; auto. exists (writeWait (dev w)). destruct (dev w); auto. }
  destruct (command_text (dtmf_base (dev w) (c_id c)) tones N B) as (s & T & Cm). rewrite Cm in H. unfold mbind at 1, lift in H. unfold try_except in H.
  destruct ((write (lit "AT" ++ s) ;;; ret tt) w) as [y0 w0|w0] eqn:R; [|discriminate].
  assert (R' : exists y, write (lit "AT" ++ s) w = Done y w0 /\ y0 = match y with Ok _ => Ok tt | Err e => Err e end).
  { apply bind_done in R as [(a & w1 & R1 & R2)|(e & R1 & ->)]; [|exists (Err e); auto]. injection R2 as <- <-. exists (Ok a). auto. }
  destruct R' as (y & W & ->). destruct (write_frame _ _ _ _ _ W) as [v D]. destruct (exchange_of _ _ _ _ _ W) as (evs & Te & X).
  assert (E : w' = w0 /\ tone_result y x).
  { destruct y as [a|e]; [injection H as <- <-; split; [auto|constructor]|]. destruct (cme_code e) as [code|] eqn:Ce.
    - destruct X as (wt & busy & codes & r & _ & _ & _ & O). destruct (Z.eqb_spec code 30) as [->|N30]; [|destruct (Z.eqb_spec code 3) as [->|N3]]; injection H as <- <-; split; auto.
      + rewrite (cme_outcome _ _ _ _ O Ce) by auto. apply to_interrupted. auto.
      + rewrite (cme_outcome _ _ _ _ O Ce) by auto. apply to_interrupted. auto.
      + apply to_error. intros c0 code0 ->. cbn in Ce. injection Ce as ->. auto.
    - injection H as <- <-. split; auto. apply to_error. intros c0 code0 ->. discriminate Ce. }
  destruct E as [-> E]. exists evs. split; [|split; auto; exists v; auto]. apply (to_sent (dev w) c tones (dtmf_base (dev w) (c_id c)) s y evs x); auto. apply base_is. auto.
Qed.

(** ** incoming_call_demo *)
Lemma demo_tones_ok : demo_tones <> [] /\ no_brace demo_tones.
Proof. split; [discriminate|]. split; cbn; intuition discriminate. Qed.
Lemma wait_calls m m' : same_but_wait m m' -> callObjs m' = callObjs m /\ activeCalls m' = activeCalls m /\ book_of m' = book_of m.
Proof. intros [v ->]. auto. Qed.
Definition settled (p : exn -> bool) (x : res unit) : res unit := match x with Err e => if p e then Ok tt else Err e | Ok _ => Ok tt end.
Lemma settled_run (p : exn -> bool) (c : M unit) w x w1 : c w = Done x w1 -> try_except c (fun e => if p e then Some (ret tt) else None) w = Done (settled p x) w1.
Proof. intro H. unfold try_except. rewrite H. destruct x as [[]|e]; auto. cbn. destruct (p e); auto. Qed.
Lemma settles p (caught : exn -> Prop) (x1 x2 : res unit) : (forall e, p e = true <-> caught e) -> outcome_of caught x1 x2 (match x2 with Ok _ => settled p x1 | Err e => Err e end).
Proof.
  intro H. destruct x2 as [[]|e]; [|apply oo_busy]. destruct x1 as [[]|e]; cbn; [constructor|]. destruct (p e) eqn:E; [apply oo_caught, H; auto|]. apply oo_raised. intro C. apply H in C. congruence.
Qed.
Theorem first_ring (env : M unit) n c w : nth_error (callObjs (dev w)) n = Some c -> c_ringCount c < 2 -> demo_incoming env n w = Done (Ok tt) w.
Proof.
  intros Hc R. unfold demo_incoming, mbind at 1, get at 1. rewrite (the_call_nth _ _ _ Hc). destruct (c_ringCount c =? 1); auto. destruct (2 <=? c_ringCount c) eqn:E; auto. lia.
Qed.
Theorem no_tones env n c w : nth_error (callObjs (dev w)) n = Some c -> 2 <= c_ringCount c -> dtmfSupport (dev w) = false -> demo_incoming env n w = hangup n w.
Proof.
  intros Hc R Ds. unfold demo_incoming, mbind at 1, get at 1. rewrite (the_call_nth _ _ _ Hc). destruct (c_ringCount c =? 1) eqn:E1; [lia|]. destruct (2 <=? c_ringCount c) eqn:E; [|lia]. rewrite Ds. auto.
Qed.
Lemma answers_keep n c b x evs b' : answers n c b x evs b' -> nth_error (b_calls b) n = Some c -> exists c', nth_error (b_calls b') n = Some c' /\ c_id c' = c_id c.
Proof.
  intros H Hc. inversion H as [|calls ? ? ? ? ? ? A|]; subst; [exists c; auto| |exists c; auto]. cbn. exists (picked_up c). split; auto. apply A. auto.
Qed.
Theorem second_ring env n c w x w' : nth_error (callObjs (dev w)) n = Some c -> 0 <= c_id c -> 2 <= c_ringCount c -> dtmfSupport (dev w) = true -> keeps_call n env ->
  demo_incoming env n w = Done x w' -> demo_answers n c env w x w'.
Proof.
  intros Hc Hid R Ds Kp H. unfold demo_incoming, mbind at 1, get at 1 in H. rewrite (the_call_nth _ _ _ Hc) in H. destruct (c_ringCount c =? 1) eqn:E1; [lia|]. destruct (2 <=? c_ringCount c) eqn:E; [|lia]. rewrite Ds in H.
  unfold mbind at 1 in H. pose proof (answer_at n c w Hc) as A. destruct (answer n w) as [[[]|e] w1|w1]; [|injection H as <- <-; destruct A as (evs & T & A); eapply da_refused; eauto|discriminate].
  destruct A as (evs & T & A). eapply da_picked; eauto. destruct (answers_keep _ _ _ _ _ _ A Hc) as (c1 & Hc1 & Id1). cbn in Hc1.
  unfold sleeping in H. rewrite bind_assoc in H. unfold mbind at 1, tell in H. fold (calling (ESleep 20) w1) in H. unfold mbind at 1 in H.
  destruct (Kp (calling (ESleep 20) w1) c1 Hc1) as (c2 & Hc2 & Id2 & _).
  destruct (env (calling (ESleep 20) w1)) as [[[]|e] w2|w2] eqn:En; cbn [last_of] in Hc2; [|injection H as <- <-; apply tp_env; auto|discriminate].
  unfold finally in H. destruct (sendDtmfTone n demo_tones w2) as [x1 w3|w3] eqn:S; [|unfold try_except in H; rewrite S in H; discriminate]. rewrite (settled_run _ _ _ _ _ S) in H.
  destruct (tones_at n demo_tones c2 w2 x1 w3 Hc2) as (e1 & To & T3 & Wt); auto; try apply demo_tones_ok; [lia|]. destruct (wait_calls _ _ Wt) as (W1 & W2 & W3).
  assert (Hc3 : nth_error (callObjs (dev w3)) n = Some c2) by (rewrite W1; auto).
  pose proof (hangup_at n c2 w3 Hc3) as Hu.
  assert (F : (do m <- get; if c_answered (the_call m n) then hangup n else ret tt) w3 = if c_answered c2 then hangup n w3 else Done (Ok tt) w3).
  { unfold mbind, get. rewrite (the_call_nth _ _ _ Hc3). destruct (c_answered c2); auto. }
  destruct (c_answered c2) eqn:An.
  2:{ inversion To as [base s y evs1 x2 Ax|Ax E1' E2']; [congruence|]. subst x1. cbn [settled is_Interrupted] in H. rewrite F in H. injection H as <- <-.
      assert (w3 = w2) as ->. { unfold sendDtmfTone, mbind, get in S. rewrite (the_call_nth _ _ _ Hc2), An in S. injection S as <-. auto. } apply (tp_gone n env w1 w2 c2); auto. }
  rewrite F in H. destruct (hangup n w3) as [x2 w4|w4]; [|discriminate]. destruct Hu as (e2 & T4 & Hu).
  assert (w' = w4 /\ x = match x2 with Ok _ => settled is_Interrupted x1 | Err e => Err e end) as [-> ->] by (destruct x2 as [[]|e]; injection H as <- <-; auto).
  eapply (tp_played n env w1 w2 c2 e1 x1 w3 e2 x2 w4); eauto. apply settles. intros e. unfold interrupted. destruct e; cbn; split; try discriminate; try (intros (? & ?); congruence). intros _. eexists; eauto.
Qed.

(** ** dial_callback_demo and dial_polling_demo *)
Definition both (e : exn) : bool := is_Interrupted e || is_CommandError e.
Lemma both_caught e : both e = true <-> interrupted e \/ command_failed e.
Proof.
  unfold both, command_failed. rewrite orb_true_iff. split; intros [H|H]; auto; left; [destruct e; try discriminate H; eexists; eauto|destruct H as (code & ->); auto].
Qed.
Definition dial_body (env : M unit) (hang fin : M unit) (n : nat) : M unit :=
  sleeping 30 env ;;;
  finally
    (try_except (do m <- get; if c_active (the_call m n) then sendDtmfTone n demo_tones else ret tt) (fun e => if both e then Some (ret tt) else None))
    (do m <- get; (if c_active (the_call m n) then hang else ret tt) ;;; fin).
Lemma dialled env (hang fin : M unit) told marks n c w x w' : nth_error (callObjs (dev w)) n = Some c -> 0 <= c_id c -> keeps_call n env ->
  (forall w2 c2, nth_error (callObjs (dev w2)) n = Some c2 -> c_callback c2 = c_callback c -> c_active c2 = true ->
     match hang w2 with
     | Done y w3 => exists evs, trace w3 = trace w2 ++ evs ++ (match y with Ok _ => told | Err _ => [] end) /\ hangs_up n c2 (book_of (dev w2)) y evs (book_of (dev w3))
     | Stuck _ => True
     end) ->
  (forall w2, exists w3, fin w2 = Done (Ok tt) w3 /\ dev w3 = dev w2 /\ trace w3 = trace w2 ++ marks) ->
  dial_body env hang fin n w = Done x w' -> tones_dialled n env told marks w x w'.
Proof.
  intros Hc Hid Kp Hh Hf H. unfold dial_body, sleeping in H. rewrite bind_assoc in H. unfold mbind at 1, tell in H. fold (calling (ESleep 30) w) in H. unfold mbind at 1 in H.
  destruct (Kp (calling (ESleep 30) w) c Hc) as (c1 & Hc1 & Id1 & Cb1).
  destruct (env (calling (ESleep 30) w)) as [[[]|e] w1|w1] eqn:En; cbn [last_of] in Hc1; [|injection H as <- <-; apply td_env; auto|discriminate].
  unfold finally in H. assert (G : forall k k' : M unit, (do m <- get; if c_active (the_call m n) then k else k') w1 = if c_active c1 then k w1 else k' w1).
  { intros k k'. unfold mbind, get. rewrite (the_call_nth _ _ _ Hc1). destruct (c_active c1); auto. }
  destruct (c_active c1) eqn:Ac.
  - destruct (sendDtmfTone n demo_tones w1) as [x1 w2|w2] eqn:S; [|unfold try_except in H; rewrite G, S in H; discriminate].
    rewrite (settled_run both _ w1 x1 w2) in H by (rewrite G; auto).
    destruct (tones_at n demo_tones c1 w1 x1 w2 Hc1) as (e1 & To & T2 & Wt); auto; try apply demo_tones_ok; [lia|]. destruct (wait_calls _ _ Wt) as (W1 & W2 & W3).
    assert (Hc2 : nth_error (callObjs (dev w2)) n = Some c1) by (rewrite W1; auto). unfold mbind at 1, get in H. rewrite (the_call_nth _ _ _ Hc2), Ac in H.
    specialize (Hh w2 c1 Hc2 Cb1 Ac). unfold mbind at 1 in H. destruct (hang w2) as [[[]|e] w3|w3]; [| |discriminate].
    + destruct Hh as (e2 & T3 & Hu). destruct (Hf w3) as (w4 & F & D4 & T4). rewrite F in H. injection H as <- <-.
      eapply (td_played n env told marks w w1 c1 e1 x1 w2 e2 w4); eauto; [rewrite D4; eauto|rewrite T4, T3, <- !app_assoc; auto|]. apply (settles both _ x1 (Ok tt)). intro. apply both_caught.
    + destruct Hh as (e2 & T3 & Hu). injection H as <- <-. rewrite app_nil_r in T3. eapply (td_failed n env told marks w w1 c1 e1 x1 w2 e2 e w3); eauto.
  - rewrite (settled_run both _ w1 (Ok tt) w1) in H by (rewrite G; auto). unfold mbind at 1, get in H. rewrite (the_call_nth _ _ _ Hc1), Ac in H. unfold mbind, ret in H.
    destruct (Hf w1) as (w2 & F & D2 & T2). rewrite F in H. injection H as <- <-. eapply (td_gone n env told marks w w1 w2 c1); eauto.
Qed.
Theorem status_unanswered env e k n c w : nth_error (callObjs (dev w)) n = Some c -> c_answered c = false -> on_status (dial_demo env e (S k)) n w = Done (Ok tt) (mk_world (dev w) (script w) (trace w ++ [ESleep 0])).
Proof. intros Hc An. cbn [dial_demo on_status]. unfold demo_status, mbind, get. rewrite (the_call_nth _ _ _ Hc), An. reflexivity. Qed.
Theorem status_answered env e k n c w x w' : nth_error (callObjs (dev w)) n = Some c -> 0 <= c_id c -> c_answered c = true -> c_callback c = true -> keeps_call n env ->
  on_status (dial_demo env e (S (S k))) n w = Done x w' -> tones_dialled n env [ESleep 0] [ESleep 0] w x w'.
Proof.
  intros Hc Hid An Cb Kp H.
  assert (E : on_status (dial_demo env e (S (S k))) n w = dial_body env (hangup_with (dial_demo env e (S k)) n) stop_waiting n w).
  { change (on_status (dial_demo env e (S (S k))) n) with (demo_status env (dial_demo env e (S k)) n). unfold demo_status, mbind at 1, get at 1. rewrite (the_call_nth _ _ _ Hc), An. reflexivity. }
  rewrite E in H. eapply dialled; eauto.
  - intros w2 c2 Hc2 Cb2 Ac2. pose proof (hangup_marked (dial_demo env e (S k)) n c2 [ESleep 0] w2 Hc2) as X. rewrite Cb2, Cb, Ac2 in X. cbn [andb] in X.
    destruct (hangup_with (dial_demo env e (S k)) n w2) as [y w3|w3]; auto. apply X. intros w4 c4 Hc4 An4. eapply status_unanswered; eauto.
  - intro w2. exists (mk_world (dev w2) (script w2) (trace w2 ++ [ESleep 0])). auto.
Qed.
Lemma hangs_inactive n c b x evs b' : hangs_up n c b x evs b' -> x = Ok tt -> nth_error (b_calls b) n = Some c -> exists c', nth_error (b_calls b') n = Some c' /\ c_active c' = false.
Proof.
  intros H E Hc. inversion H as [calls table Ac A W|calls table evs0 told a Ac X S A W|]; subst; [| |discriminate]; cbn.
  - exists (hushed c). split; [apply A; auto|]. auto.
  - exists (now_ended (hushed c)). split; [apply A; auto|]. auto.
Qed.
Lemma dialled_inactive n env told marks w w' : tones_dialled n env told marks w (Ok tt) w' -> exists c, nth_error (callObjs (dev w')) n = Some c /\ c_active c = false.
Proof.
  intro H. inversion H as [|w1 w2 c En Hc Ac D T|w1 c e1 x1 w2 e2 w3 x En Hc Ac To T2 Wt Hu T3 O|]; subst.
  - exists c. rewrite D. auto.
  - destruct (wait_calls _ _ Wt) as (W1 & _). apply (hangs_inactive _ _ _ _ _ _ Hu); auto. cbn. rewrite W1. auto.
Qed.
Theorem polls_call n was : forall envs w x w' c, Forall (keeps_call n) envs -> nth_error (callObjs (dev w)) n = Some c -> 0 <= c_id c -> c_callback c = false ->
  demo_loop envs n was w = Done x w' ->
  exists before rest w1, envs = before ++ rest /\ awaits n before w w1 /\ looks n was rest w1 x w'.
Proof.
  induction envs as [|env envs IH]; intros w x w' c F Hc Hid Cb H; cbn [demo_loop] in H; unfold mbind at 1, get at 1 in H; rewrite (the_call_nth _ _ _ Hc) in H.
  - destruct (c_active c) eqn:Ac; injection H as <- <-; exists [], [], w; split; auto; split; try constructor; [eapply lo_still; eauto|eapply lo_over; eauto].
  - inversion F as [|? ? Kp F']; subst. destruct (c_active c) eqn:Ac; [|injection H as <- <-; exists [], (env :: envs), w; split; auto; split; [constructor|eapply lo_over; eauto]].
    destruct (c_answered c) eqn:An.
    + assert (E : mbind (dial_body env (hangup n) (ret tt) n) (fun _ => demo_loop envs n true) w = Done x w').
      { rewrite <- H. clear H. unfold dial_body. rewrite !bind_assoc. apply bind_ext; auto. intros _ w1. apply bind_ext; auto. unfold finally.
        destruct (try_except _ _ w1) as [r w2|w2]; auto. unfold mbind at 1, get at 1. unfold mbind at 2, get at 1. destruct (c_active (the_call (dev w2) n)); [|reflexivity]. unfold mbind. destruct (hangup n w2) as [[[]|e] w3|w3]; auto. }
      clear H. assert (D : forall y w1, dial_body env (hangup n) (ret tt) n w = Done y w1 -> tones_dialled n env [] [] w y w1).
      { intros y w1 Hb. apply (dialled env (hangup n) (ret tt) [] [] n c w y w1); auto.
        - intros w2 c2 Hc2 Cb2 Ac2. pose proof (hangup_at n c2 w2 Hc2) as X. destruct (hangup n w2) as [z w3|w3]; auto. destruct X as (evs & T & Hu). exists evs. split; auto. rewrite T. destruct z; rewrite app_nil_r; auto.
        - intro w2. exists w2. rewrite app_nil_r. auto. }
      apply bind_done in E as [([] & w1 & E1 & E2)|(e & E1 & ->)].
      * destruct (dialled_inactive _ _ _ _ _ _ (D _ _ E1)) as (c1 & Hc1 & Ac1). assert (Done (Ok (Some true)) w1 = Done x w') as X.
        { rewrite <- E2. destruct envs; cbn [demo_loop]; unfold mbind, get; rewrite (the_call_nth _ _ _ Hc1), Ac1; auto. }
        injection X as <- <-. exists [], (env :: envs), w. split; auto. split; [constructor|]. apply (lo_tones n was env envs w c (Ok tt) w1); eauto.
      * exists [], (env :: envs), w. split; auto. split; [constructor|]. apply (lo_tones n was env envs w c (Err e) w'); eauto. discriminate.
    + unfold sleeping in H. rewrite bind_assoc in H. unfold mbind at 1, tell in H. fold (calling (ESleep 5) w) in H. unfold mbind at 1 in H.
      destruct (Kp (calling (ESleep 5) w) c Hc) as (c1 & Hc1 & Id1 & Cb1).
      destruct (env (calling (ESleep 5) w)) as [[[]|e] w1|w1] eqn:En; cbn [last_of] in Hc1; [| |discriminate].
      * destruct (IH w1 x w' c1 F' Hc1 ltac:(lia) ltac:(congruence) H) as (before & rest & w2 & -> & Aw & Lo). exists (env :: before), rest, w2. split; auto. split; auto. econstructor; eauto.
      * injection H as <- <-. exists [], (env :: envs), w. split; auto. split; [constructor|]. eapply lo_failed; eauto.
Qed.

(** ** sms_handler_demo *)
Lemma thanks_text t : thanks t (thank_you t).
Proof.
  unfold thank_you. destruct (20 <? Z.of_nat (length t)) eqn:L.
  - rewrite <- (firstn_skipn 20 t) at 1. change (lit "..." ++ lit """") with (lit "..."""). apply th_long.
    + rewrite firstn_length. lia.
    + intro E. apply (f_equal (@length Z)) in E. rewrite skipn_length in E. cbn in E. lia.
  - rewrite firstn_all2 by lia. cbn [Datatypes.app]. apply th_short. lia.
Qed.
Lemma thanks_fun t a b : thanks t a -> thanks t b -> a = b.
Proof.
  intros H H'. inversion H as [t1 L|p q L N]; subst; inversion H' as [t2 L'|p' q' L' N' E]; subst; auto.
  - rewrite app_length in L. destruct q'; [contradiction|cbn in L; lia].
  - rewrite app_length in L'. destruct q; [contradiction|cbn in L'; lia].
  - assert (p = p') as ->; auto. apply (f_equal (firstn 20)) in E. rewrite !firstn_app, <- L, <- L' in E at 1. 
    rewrite (firstn_all2 p) in E by lia. rewrite firstn_all2 in E by lia. rewrite L, L', Nat.sub_diag in E. cbn in E. rewrite !app_nil_r in E. auto.
Qed.
Lemma thanks_length t a : thanks t a -> (length a <= 39)%nat.
Proof. intros [t1 L|p q L N]; rewrite !app_length; cbn; lia. Qed.
Fixpoint echo (k : nat) (t : str) : str := match k with O => t | S k' => thank_you (echo k' t) end.
Lemma echo_settles t k : echo (3 + k) t = lit "SMS received: ""SMS received: ""SMS r...""".
Proof.
  assert (A : forall u, exists v, echo 2 u = lit "SMS received: ""SMS r" ++ v /\ v <> []).
  { intro u. cbn [echo]. remember (thank_you u) as y eqn:Y. assert (E : exists v, y = lit "SMS received: """ ++ v). { subst y. unfold thank_you. eexists. reflexivity. }
    destruct E as (v & ->). exists (skipn 20 (thank_you (lit "SMS received: """ ++ v))). split; [reflexivity|]. unfold thank_you. cbn. destruct (_ <? _); discriminate. }
  assert (B : forall u v, u = lit "SMS received: ""SMS r" ++ v -> v <> [] -> thank_you u = lit "SMS received: ""SMS received: ""SMS r...""").
  { intros u v -> N. unfold thank_you. replace (20 <? Z.of_nat (length (lit "SMS received: ""SMS r" ++ v))) with true; [reflexivity|]. symmetry. apply Z.ltb_lt. rewrite app_length. destruct v; [contradiction|]. cbn. lia. }
  induction k as [|k IH].
  - destruct (A t) as (v & E & N). exact (B _ _ E N).
  - change (echo (3 + S k) t) with (thank_you (echo (3 + k) t)). rewrite IH. reflexivity.
Qed.
Lemma echoes_echo t k u : echoes t k u -> u = echo k t.
Proof. induction 1 as [|k u v E IH T]; auto. cbn [echo]. subst u. exact (thanks_fun _ _ _ T (thanks_text _)). Qed.
Theorem echoes_settle t k u : (3 <= k)%nat -> echoes t k u -> u = lit "SMS received: ""SMS received: ""SMS r...""".
Proof. intros L E. rewrite (echoes_echo _ _ _ E). replace k with (3 + (k - 3))%nat by lia. apply echo_settles. Qed.
Lemma thanks_plain t a c : thanks t a -> In c a -> In c t \/ In c (lit "SMS received: ""...""").
Proof.
  intros T Hi. inversion T as [t1 L|p q L N]; subst; rewrite !in_app_iff in Hi.
  - destruct Hi as [H|[H|H]]; auto; right; apply in_or_app with (l := lit "SMS received: """) (m := lit "..."""); auto. right. destruct H as [<-|[]]. cbn. auto.
  - destruct Hi as [H|[H|H]]; auto; [right; apply in_or_app with (l := lit "SMS received: """) (m := lit "..."""); auto|left; apply in_or_app; auto|right; apply in_or_app with (l := lit "SMS received: """) (m := lit "..."""); auto].
Qed.
Lemma received_quoted gsm7 fill t t' : text_received gsm7 fill (t ++ lit """") t' -> t' = t ++ lit """".
Proof. unfold text_received. destruct gsm7; auto. intros [n W D|n W D]; auto. unfold drops_final_at in D. apply andb_true_iff in D as [_ D]. change (lit """") with [34] in D. rewrite last_last in D. discriminate. Qed.
Lemma thanks_quoted t a : thanks t a -> exists b, a = b ++ lit """".
Proof. intros [t1 L|p q L N]; eexists; rewrite app_assoc; [reflexivity|]. change (lit "...""") with (lit "..." ++ lit """"). rewrite app_assoc. reflexivity. Qed.
Theorem sms_demo_replies from oaf stat t text smsc m sc w message gsm7 : std_address from oaf -> type_of_number (nth 1 oaf 0) <> 5 -> ~ In 27 text ->
  thanks text message -> uses_gsm7 message gsm7 -> smsTextMode m = false ->
  demo_sms (Received stat (Some from) t text smsc) (start m sc) = Done (Ok tt) w ->
  exists p answer, transmits [p] (trace w) (Ok answer) /\ (exists f, submit_of (pdu_data p) from f /\ reply_field oaf (s_dest f)) /\
    forall to own t2 smsc2 data stat2 content, forwards (pdu_data p) to own t2 smsc2 data -> stored_as data stat2 content ->
      to = from /\ reads_as false content (Received stat2 (Some own) t2 message smsc2).
Proof.
  intros Ha T5 N27 Th Hg Tm H. assert (message = thank_you text) as -> by exact (thanks_fun _ _ _ Th (thanks_text text)). cbn [demo_sms] in H.
  apply bind_done in H as [(obj & w1 & H & R)|(e & _ & X)]; [|discriminate]. injection R as <-.
  assert (N : ~ In 27 (thank_you text)). { intro Hi. destruct (thanks_plain _ _ _ Th Hi) as [X|X]; auto. cbn in X. intuition discriminate. }
  pose proof (thanks_length _ _ Th) as L39.
  assert (C : (max_chars gsm7 <? len (thank_you text)) = false). { apply Z.ltb_ge. unfold max_chars, len. destruct gsm7; lia. }
  cbn [NetworkModel.reply] in H. destruct (sent_parts _ _ _ _ _ _ _ _ Tm H) as (pdus & answer & E & Tr). destruct (sender_phone from oaf Ha T5) as (d & toa & Hp & Eo).
  destruct (encode_wires _ _ _ _ _ _ _ _ _ E) as (g & _ & Hg' & L & HN). pose proof (uses_gsm7_fun _ _ _ Hg Hg') as <-.
  unfold pdu_count in L. rewrite C in L. destruct pdus as [|p [|q pdus]]; [discriminate| |exfalso; unfold len in L; cbn [length] in L; lia].
  destruct (HN 0%nat p eq_refl) as (Hlt & w0 & W). destruct (addressed _ _ _ _ _ _ _ _ _ Hp E (eq_refl : nth_error [p] 0 = Some p)) as ((f & Sub) & B).
  exists p, answer. split; auto. split.
  - exists f. split; auto. destruct (B _ _ Sub) as (_ & ->). rewrite Eo. exists (len d), toa, (128 + 16 * (if type_of_number toa =? 1 then 1 else 2) + 1), (semi d). repeat split. destruct (_ =? 1); reflexivity.
  - intros to own t2 smsc2 data stat2 content F St. destruct (read_delivered _ _ _ _ _ _ _ _ _ _ _ _ _ _ _ _ _ _ _ Hp N W Hlt F St) as (-> & message' & R & Ra). split; auto.
    unfold part_of in R. rewrite C in R. destruct (thanks_quoted _ _ Th) as (b & Eb). rewrite Eb in *. rewrite (received_quoted _ _ _ _ R) in Ra. auto.
Qed.
Theorem sms_demo_report stat r n t1 t2 d w : demo_sms (Report stat r n t1 t2 d) w = Done (Err AttributeError) w.
Proof. reflexivity. Qed.

(** ** ussd_demo *)
Theorem ussd_demo m s sc env ns x w' : (forall w1, sendUssd_start s (start m sc) = Done (Ok None) w1 -> exists w2, env w1 = Done (Ok tt) w2 /\ ussd_notified w1 ns w2) ->
  demo_ussd env s (start m sc) = Done x w' -> ussd_shown s ns (trace w') x.
Proof.
  intros He H. unfold demo_ussd in H. unfold mbind at 1 in H. destruct (sendUssd_start s (start m sc)) as [[[u|]|e] w1|w1] eqn:S; [| | |discriminate].
  - destruct (start_answers _ _ _ _ _ S ltac:(discriminate)) as (_ & [ls|e] & X & P); [|discriminate]. destruct P as ((l & Hl & Sl) & P).
    assert (A : ussd_answer ls ns (Ok u)). { replace (Ok u) with (parseCusdResponse ls) by (destruct (parseCusdResponse ls); congruence). econstructor; eauto. }
    unfold mbind, ret in H. destruct (u_active u) eqn:Au.
    + unfold ussd_cancel in H. rewrite Au in H. unfold mbind in H. destruct (write (lit "AT+CUSD=2") w1) as [[a|e] w2|w2] eqn:W; [| |discriminate]; injection H as <- <-;
        destruct (exchange_of _ _ _ _ _ W) as (evs & T & Y); rewrite T; eapply us_answered; eauto; [apply (uc_cancelled u evs (Ok a))|apply (uc_cancelled u evs (Err e))]; auto.
    + injection H as <- <-. rewrite <- (app_nil_r (trace w1)). eapply us_answered; eauto. constructor. auto.
  - destruct (start_waits _ _ _ _ S) as (Ev & ls & first & T1 & X & F). destruct (He w1 eq_refl) as (w2 & En & No). unfold mbind in H. rewrite En in H.
    destruct (sendUssd_finish w2) as [y w3|w3] eqn:Fi; [|discriminate]. destruct (session_result _ _ _ _ _ _ _ _ S No Fi) as (_ & T3 & Ey).
    assert (A := ua_later ls ns F). destruct (last_response ns) as [u|]; subst y.
    + destruct (u_active u) eqn:Au.
      * unfold ussd_cancel in H. rewrite Au in H. unfold mbind in H. destruct (write (lit "AT+CUSD=2") w3) as [[a|e] w4|w4] eqn:W; [| |discriminate]; injection H as <- <-;
          destruct (exchange_of _ _ _ _ _ W) as (evs & T & Y); rewrite T, T3, T1; eapply us_answered; eauto; [apply (uc_cancelled u evs (Ok a))|apply (uc_cancelled u evs (Err e))]; auto.
      * injection H as <- <-. rewrite T3, T1, <- (app_nil_r first). eapply us_answered; eauto. constructor. auto.
    + injection H as <- <-. rewrite T3, T1. eapply us_failed; eauto.
  - injection H as <- <-. destruct (start_answers _ _ _ _ _ S ltac:(discriminate)) as (_ & [ls|e'] & X & P).
    + destruct P as ((l & Hl & Sl) & P). eapply us_failed; eauto. replace (Err e) with (parseCusdResponse ls) by (destruct (parseCusdResponse ls); congruence). econstructor; eauto.
    + injection P as ->. apply us_refused; auto.
Qed.
