(** Proofs about the methods of calls, dialling, and incoming calls. *)
From Verif Require Import Base RegexModel RegexProofs UtilModel UtilSpec UtilProofs ModemCore ModemSpec WriteProofs MonadProofs PollProofs SmsModel SendSpec SendProofs LangProofs CoverageSpec CoverageProofs ReadProofs QueryProofs
  ModemFinal TrackSpec TrackProofs CallModel NotifyModel PollModel PollSpec BookSpec BookProofs CallProofs.

Theorem report_does r m sc : exists x w, handles_report r (start m sc) = Done x w /\ takes_report (book_of m) r x (book_of (dev w)) /\ script w = sc /\ tells (book_of m) r (trace w).
Proof. destruct (report_run r (start m sc)) as (x & w & evs & R & T & S & Tr & Te). exists x, w. rewrite Tr. auto. Qed.

(** ** Notifications *)
Lemma unrelated_next lines line rest w : unrelated (callUpdates (dev w)) line -> notify_each lines (line :: rest) w = notify_each lines rest w.
Proof.
  intros (R & P & N). cbn [notify_each].
  destruct (contains line (lit "RING")) eqn:E1; [apply contains_iff in E1; tauto|].
  destruct (startswith line (lit "+CMTI")) eqn:E2; [apply startswith_app in E2 as [r E]; destruct (P r); tauto|].
  destruct (startswith line (lit "+CUSD")) eqn:E3; [apply startswith_app in E3 as [r E]; destruct (P r); tauto|].
  destruct (startswith line (lit "+CDSI")) eqn:E4; [apply startswith_app in E4 as [r E]; destruct (P r); tauto|].
  unfold mbind, get. pose proof (news_spec (callUpdates (dev w)) line) as S. destruct (try_updates _ line); auto. destruct S as (n & S & _). destruct (N _ S).
Qed.
Lemma unrelated_skip lines before rest w : Forall (unrelated (callUpdates (dev w))) before -> notify_each lines (before ++ rest) w = notify_each lines rest w.
Proof. induction 1 as [|l before H _ IH]; auto. cbn [app]. rewrite unrelated_next; auto. Qed.
Theorem nothing_noted lines m sc : Forall (unrelated (callUpdates m)) lines -> handleNotification lines (start m sc) = Done (Ok tt) (start m sc).
Proof. intro F. unfold handleNotification. pose proof (unrelated_skip lines lines [] (start m sc)) as H. rewrite app_nil_r in H. rewrite H; auto. Qed.
Theorem news_noted before line after n m sc : sound_book (book_of m) -> Forall (unrelated (callUpdates m)) before -> call_news (callUpdates m) line n ->
  exists x w, handleNotification (before ++ line :: after) (start m sc) = Done x w /\ takes_news (book_of m) n x (book_of (dev w)) /\ script w = sc /\ tells_news (book_of m) n (trace w).
Proof.
  intros Sd F N. unfold handleNotification. rewrite (unrelated_skip (before ++ line :: after) before (line :: after)) by auto. generalize (before ++ line :: after). intro lines. cbn [notify_each].
  destruct (contains line (lit "RING")) eqn:E1; [apply contains_iff in E1; destruct (news_no_ring _ _ _ N); auto|].
  destruct (news_not_stored _ _ _ N) as (-> & -> & ->).
  pose proof (news_spec (callUpdates m) line) as S. unfold mbind, get. cbn [dev start]. destruct (try_updates _ line) as [k|]; [|destruct (S _ N)].
  destruct S as (n' & N' & A). rewrite (news_fun _ _ _ _ N N'). destruct (A (start m sc) Sd) as (x & w & evs & R & T & Sc & Tr & Te). exists x, w. rewrite Tr. auto.
Qed.

(** ** hangup and answer *)
Lemma update_ext_at {A} (l : list A) n (f g : A -> A) c : nth_error l n = Some c -> f c = g c -> update l n f = update l n g.
Proof. revert n. induction l as [|x l IH]; intros [|n] H E; cbn in *; try discriminate; [injection H as ->; congruence|]. f_equal. eauto. Qed.
Lemma update_id {A} (l : list A) n (f : A -> A) c : nth_error l n = Some c -> f c = c -> update l n f = l.
Proof. revert n. induction l as [|x l IH]; intros [|n] H E; cbn in *; try discriminate; [injection H as ->; congruence|]. f_equal. eauto. Qed.
Lemma told_run n b w c : nth_error (callObjs (dev w)) n = Some c -> exists tr, set_answered n b w = Done (Ok tt) (mk_world (set_callObjs (update (callObjs (dev w)) n (with_answered b)) (dev w)) (script w) (trace w ++ tr)) /\ status_told n c tr.
Proof.
  intro H. unfold set_answered, change_call, mbind, modify, get. cbn [dev].
  rewrite (the_call_nth _ n (with_answered b c)) by (cbn; rewrite update_nth, Nat.eqb_refl, H; auto). cbn [c_callback with_answered]. unfold status_told.
  destruct (c_callback c); [exists [EStatus n]|exists []]; split; auto. cbn. rewrite app_nil_r. auto.
Qed.
Lemma free_run n id w : c_id (the_call (dev w) n) = id ->
  (do m <- get; match zget (activeCalls m) (c_id (the_call m n)) with Some _ => modify (fun m => set_activeCalls (zdel (activeCalls m) (c_id (the_call m n))) m) | None => ret tt end) w
  = Done (Ok tt) (mk_world (set_activeCalls (zdel (activeCalls (dev w)) id) (dev w)) (script w) (trace w)).
Proof.
  intro E. unfold mbind, get, modify, ret. rewrite E. destruct (zget (activeCalls (dev w)) id) as [k|] eqn:G; [rewrite E; auto|].
  assert (Z : zdel (activeCalls (dev w)) id = activeCalls (dev w)) by (eapply without_fresh; [apply zdel_without|apply zget_none; auto]).
  rewrite Z. destruct w as [d s t]. destruct d. reflexivity.
Qed.
Theorem hangup_does n c m sc : nth_error (callObjs m) n = Some c ->
  match hangup n (start m sc) with
  | Done x w => hangs_up n c (book_of m) x (trace w) (book_of (dev w))
  | Stuck _ => c_active c = true
  end.
Proof.
  intro Hc. unfold hangup, mbind at 1, get at 1. cbn [dev start]. rewrite (the_call_nth _ _ _ Hc).
  set (l1 := update (callObjs m) n hushed).
  assert (R : (if c_incoming c then change_call n (with_ringing false) else ret tt) (start m sc) = Done (Ok tt) (start (set_callObjs l1 m) sc)).
  { unfold l1. destruct (c_incoming c) eqn:I.
    - unfold change_call, modify. cbn [dev start script trace]. rewrite (update_ext_at _ n (with_ringing false) hushed c Hc); auto. unfold hushed, with_ringing. rewrite I. auto.
    - rewrite (update_id _ n hushed c Hc); [destruct m; reflexivity|]. destruct c; cbn in I; subst; reflexivity. }
  unfold mbind at 1. rewrite R. clear R.
  assert (H1 : nth_error l1 n = Some (hushed c)) by (unfold l1; rewrite update_nth, Nat.eqb_refl, Hc; auto).
  destruct (c_active c) eqn:A.
  - unfold mbind at 1, mbind at 1. destruct (write (lit "ATH") (start (set_callObjs l1 m) sc)) as [[a|e] w1|w1] eqn:W; auto.
    + destruct (write_frame _ _ _ _ _ W) as [v D]. destruct (exchange_of _ _ _ _ _ W) as (evs & T & X). unfold mbind at 1.
      assert (Hc1 : nth_error (callObjs (dev w1)) n = Some (hushed c)) by (rewrite D; auto).
      destruct (told_run n false w1 _ Hc1) as (told & R & S). rewrite R. clear R. unfold change_call, modify. cbn [dev script trace callObjs set_callObjs].
      rewrite (free_run n (c_id c)).
      2:{ cbn [dev]. erewrite the_call_nth; [|cbn; rewrite !update_nth, Nat.eqb_refl, Hc1; reflexivity]. reflexivity. }
      cbn [dev script trace]. rewrite T, D. cbn [trace start app]. unfold book_of. cbn.
      apply (hu_done n c (book_of m) (update (update l1 n (with_answered false)) n (with_active false)) (zdel (activeCalls m) (c_id c)) evs told a); auto.
      * unfold l1. rewrite !update_update. rewrite (update_ext_at _ n _ (fun c => now_ended (hushed c)) c Hc) by auto. apply update_at.
      * apply zdel_without.
    + destruct (write_frame _ _ _ _ _ W) as [v D]. destruct (exchange_of _ _ _ _ _ W) as (evs & T & X). rewrite T, D. cbn.
      apply (hu_failed n c (book_of m) l1); auto. apply update_at.
  - unfold mbind at 1, ret at 1. rewrite (free_run n (c_id c)); [|cbn [dev start]; erewrite the_call_nth; [|exact H1]; auto].
    cbn. apply (hu_ended n c (book_of m) l1 (zdel (activeCalls m) (c_id c))); auto; [apply update_at|apply zdel_without].
Qed.
Theorem answer_does n c m sc : nth_error (callObjs m) n = Some c ->
  match answer n (start m sc) with
  | Done x w => answers n c (book_of m) x (trace w) (book_of (dev w))
  | Stuck _ => c_ringing c = true
  end.
Proof.
  intro Hc. unfold answer, mbind at 1, get at 1. cbn [dev start]. rewrite (the_call_nth _ _ _ Hc).
  destruct (c_ringing c) eqn:A; [|apply an_silent; auto].
  unfold mbind at 1. destruct (write (lit "ATA") (start m sc)) as [[a|e] w1|w1] eqn:W; auto.
  - destruct (write_frame _ _ _ _ _ W) as [v D]. destruct (exchange_of _ _ _ _ _ W) as (evs & T & X). unfold mbind at 1, change_call, modify.
    assert (Hc1 : nth_error (update (callObjs (dev w1)) n (with_ringing false)) n = Some (with_ringing false c)) by (rewrite D; rewrite update_nth, Nat.eqb_refl; cbn; rewrite Hc; auto).
    destruct (told_run n true (mk_world (set_callObjs (update (callObjs (dev w1)) n (with_ringing false)) (dev w1)) (script w1) (trace w1)) _ Hc1) as (told & R & S).
    rewrite R. clear R. cbn [dev trace script]. rewrite T, D. cbn.
    apply (an_done n c (book_of m) (update (update (callObjs m) n (with_ringing false)) n (with_answered true)) evs told a); auto.
    rewrite update_update. rewrite (update_ext_at _ n _ picked_up c Hc) by auto. apply update_at.
  - destruct (write_frame _ _ _ _ _ W) as [v D]. destruct (exchange_of _ _ _ _ _ W) as (evs & T & X). rewrite T, D. cbn. apply (an_failed n c (book_of m)); auto.
Qed.

(** ** Polling *)
Theorem modem_polls alive_at timeout n m sc : (match timeout with Some t => if t =? 0 then n = 999999 else n = t | None => n = 999999 end) ->
  let o := pollCallStatus alive_at timeout (start m sc) in
  exists used os reps over failed, asked (trace (last_of o)) = map (ask (lit "AT+CLCC")) used /\
    performed takes_report (book_of m) reps failed (book_of (dev (last_of o))) /\ reported os reps over /\ poll_ends alive_at (2 * n) os over failed used o.
Proof.
  intros H o. assert (E : o = poll_loop modem_handlers (S (length sc)) alive_at 0 None (2 * n) (start m sc)).
  { unfold o, pollCallStatus. destruct timeout as [t|]; [destruct (t =? 0)|]; subst; auto. }
  rewrite E. apply (poll_reports book_of takes_report modem_handlers). apply modem_performing.
Qed.
