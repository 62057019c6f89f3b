(** Calls. *)
From Verif Require Import Base ModemCore ModemSpec SendSpec TrackSpec CoverageSpec MonadProofs CallModel CallSpec DtmfProofs NotifyModel PollModel PollSpec PollProofs BookSpec BookProofs CallProofs CallFinal.

(** C52: the tones are sent in one command, in order; an error "call ended" (CME error
    30, or 3 on Huawei modems) is reported as an interruption. *)
Theorem C52_sent : forall n tones m sc c x w, nth_error (callObjs m) n = Some c -> c_answered c = true -> 0 <= c_id c -> tones <> [] -> no_brace tones ->
  sendDtmfTone n tones (start m sc) = Done x w ->
  exists base s y, tone_base (dtmfHuawei m) (c_id c) base /\ tone_list base tones s /\ exchange (lit "AT" ++ s) [13] (trace w) y /\ tone_result y x.
Proof. exact tones_sent. Qed.
Print Assumptions C52_sent.
(** on a call that is not answered nothing is written *)
Theorem C52_refused : forall n tones m sc c, nth_error (callObjs m) n = Some c -> c_answered c = false ->
  sendDtmfTone n tones (start m sc) = Done (Err InvalidStateException) (start m sc).
Proof. exact tones_refused. Qed.
Print Assumptions C52_refused.
Definition answered_call : modem := set_callObjs [mk_call 12 false (Some 0) (Some (lit "0821234567")) false true true false 0] modem_init.
Example C52_example : exists w, sendDtmfTone 0 (lit "1#A") (start answered_call [Lines [lit "+CME ERROR: 14"]; Lines [lit "OK"]]) = Done (Ok tt) w /\
  In (EWrite (lit "AT+VTS=1;+VTS=#;+VTS=A" ++ [13]) (Some (Lines [lit "OK"]))) (trace w).
Proof. eexists. split; [vm_compute; reflexivity|vm_compute; tauto]. Qed.
Example C52_example_huawei : exists w, sendDtmfTone 0 (lit "12") (start (set_dtmfHuawei true answered_call) [Lines [lit "+CME ERROR: 30"]]) = Done (Err (InterruptedException 30)) w /\
  trace w = [EWrite (lit "AT^DTMF=12,1;^DTMF=12,2" ++ [13]) (Some (Lines [lit "+CME ERROR: 30"]))].
Proof. eexists. split; vm_compute; reflexivity. Qed.
(** braces are taken for a replacement field of str.format *)
Example C52_example_brace : sendDtmfTone 0 (lit "1{") (start answered_call []) = Done (Err ValueError) (start answered_call []).
Proof. reflexivity. Qed.

(** C51: a call that ends is removed from the table, marked inactive and unanswered, and
    no other call is affected.  This and the other reports, with the callbacks: *)
Theorem C51_reports : forall r m sc, exists x w, handles_report r (start m sc) = Done x w /\
  takes_report (book_of m) r x (book_of (dev w)) /\ script w = sc /\ tells (book_of m) r (trace w).
Proof. exact report_does. Qed.
Print Assumptions C51_reports.
(** the notifications that the modem sends about calls *)
Theorem C51_notifications : forall before line after n m sc, sound_book (book_of m) -> Forall (unrelated (callUpdates m)) before -> call_news (callUpdates m) line n ->
  exists x w, handleNotification (before ++ line :: after) (start m sc) = Done x w /\
    takes_news (book_of m) n x (book_of (dev w)) /\ script w = sc /\ tells_news (book_of m) n (trace w).
Proof. exact news_noted. Qed.
Print Assumptions C51_notifications.
Theorem C51_unrelated : forall lines m sc, Forall (unrelated (callUpdates m)) lines -> handleNotification lines (start m sc) = Done (Ok tt) (start m sc).
Proof. exact nothing_noted. Qed.
Print Assumptions C51_unrelated.
(** hangup() and answer() *)
Theorem C51_hangup : forall n c m sc, nth_error (callObjs m) n = Some c ->
  match hangup n (start m sc) with
  | Done x w => hangs_up n c (book_of m) x (trace w) (book_of (dev w))
  | Stuck _ => c_active c = true
  end.
Proof. exact hangup_does. Qed.
Print Assumptions C51_hangup.
Theorem C51_answer : forall n c m sc, nth_error (callObjs m) n = Some c ->
  match answer n (start m sc) with
  | Done x w => answers n c (book_of m) x (trace w) (book_of (dev w))
  | Stuck _ => c_ringing c = true
  end.
Proof. exact answer_does. Qed.
Print Assumptions C51_answer.
(** whatever happens, the table lists active calls under their own ids, no id twice *)
Theorem C51_table : forall hs m, call_history hs m -> sound_book (book_of m).
Proof. exact history_sound. Qed.
Print Assumptions C51_table.
(** the table lists all active calls, as long as ids do not clash *)
Theorem C51_complete : forall hs m, call_history hs m -> (forall m1 o m2, In (m1, o, m2) hs -> no_clash m1 o m2) -> complete_book (book_of m).
Proof. exact history_complete. Qed.
Print Assumptions C51_complete.
(** they do not, for ids counted by the program, as long as calls leave the table in the
    opposite order; the ids are then 1, 2, ..., n *)
Theorem C51_counted : forall hs m, call_history hs m -> (forall m1 o m2, In (m1, o, m2) hs -> counted m1 o m2) ->
  ids (book_of m) = count_up (length (activeCalls m)) /\
  forall m1 o m2 c, In (m1, o, m2) hs -> nth_error (callObjs m2) (length (callObjs m1)) = Some c -> ~ In (c_id c) (ids (book_of m1)).
Proof. exact history_counted. Qed.
Print Assumptions C51_counted.
(** runs, for the examples *)
Fixpoint run_calls (m : modem) (ops : list (call_op * list reply)) : modem :=
  match ops with [] => m | (o, sc) :: ops => run_calls (state_after (perform o (start m sc))) ops end.
Fixpoint steps_calls (m : modem) (ops : list (call_op * list reply)) : list (modem * call_op * modem) :=
  match ops with [] => [] | (o, sc) :: ops => let m' := state_after (perform o (start m sc)) in (m, o, m') :: steps_calls m' ops end.
Fixpoint all_applicable (m : modem) (ops : list (call_op * list reply)) : Prop :=
  match ops with [] => True | (o, sc) :: ops => applicable o m /\ all_applicable (state_after (perform o (start m sc))) ops end.
Lemma run_history hs m ops : call_history hs m -> all_applicable m ops -> call_history (hs ++ steps_calls m ops) (run_calls m ops).
Proof.
  revert hs m. induction ops as [|[o sc] ops IH]; intros hs m H A; cbn in *; [rewrite app_nil_r; auto|]. destruct A as [A1 A2].
  replace (hs ++ (m, o, state_after (perform o (start m sc))) :: steps_calls (state_after (perform o (start m sc))) ops)
    with ((hs ++ [(m, o, state_after (perform o (start m sc)))]) ++ steps_calls (state_after (perform o (start m sc))) ops) by (rewrite <- app_assoc; auto).
  apply IH; auto. constructor; auto.
Qed.
Definition calling : modem := set_clip true (set_waitAtd true (set_waitInit false (set_callUpdates TZte modem_init))).
Definition ok : list reply := [Lines [lit "OK"]].
(** an incoming call rings twice and is answered, another call is dialled, answered and
    hung up by the other side *)
Definition ordinary_calls : list (call_op * list reply) :=
  let ring := [lit "RING"; lit "+CLIP: ""+2782"",145,,,,0"] in
  [(Notification ring, []); (Notification ring, []); (Answer 0, ok); (Dial (lit "123") true, ok); (Notification [lit "^BOOT"; lit "CONNECT"], []); (Notification [lit "HANGUP: 2"], [])].
Example C51_example : call_history (steps_calls calling ordinary_calls) (run_calls calling ordinary_calls) /\
  callObjs (run_calls calling ordinary_calls) = [mk_call 1 true None (Some (lit "+2782")) false true true false 2; mk_call 2 false (Some 0) (Some (lit "123")) true false false false 0] /\
  activeCalls (run_calls calling ordinary_calls) = [(1, 0%nat)].
Proof.
  split; [|vm_compute; auto]. apply (run_history [] calling); [constructor; reflexivity|]. repeat split; cbn; auto.
Qed.
Example C51_example_counted : forall m1 o m2, In (m1, o, m2) (steps_calls calling ordinary_calls) -> counted m1 o m2 /\ no_clash m1 o m2.
Proof.
  intros m1 o m2 H. vm_compute in H. decompose [or] H; try contradiction;
  match goal with E : _ = (m1, o, m2) |- _ => injection E as <- <- <- end; (split; split; [discriminate| |vm_compute|intros n c E; discriminate E]);
  try (intros [|? [|? [|? ?]]] id b E N; vm_compute in E; try discriminate E; injection E; intros; subst; vm_compute; tauto);
  try (intros c E; discriminate E); intros c E; injection E as <-; cbn; intuition discriminate.
Qed.
(** Two calls, the first of them ends, another is dialled: it gets the id of the second
    (the number of active calls plus one), and takes its place in the table although
    that call is still active. *)
Definition clashing_calls : list (call_op * list reply) :=
  [(Dial (lit "1") false, ok); (Dial (lit "2") false, ok); (Polled (CallEnded (Some 1)), []); (Dial (lit "3") false, ok)].
Example C51_example_overwritten : let m := run_calls calling clashing_calls in
  activeCalls m = [(2, 2%nat)] /\ option_map c_active (nth_error (callObjs m) 1) = Some true /\ option_map c_id (nth_error (callObjs m) 1) = Some 2 /\ option_map c_id (nth_error (callObjs m) 2) = Some 2.
Proof. vm_compute. auto. Qed.
(** hangup() of a call that has ended removes another call that has got its id *)
Example C51_example_stale_hangup : let m := run_calls calling [(Dial (lit "1") false, ok); (Polled (CallEnded (Some 1)), []); (Dial (lit "2") false, ok); (Hangup 0, [])] in
  activeCalls m = [] /\ option_map c_active (nth_error (callObjs m) 1) = Some true.
Proof. vm_compute. auto. Qed.
(** a call from a number that is being called *)
Example C51_example_crossing : let m := run_calls calling [(Dial (lit "123") false, ok)] in
  exists w, handleNotification [lit "RING"; lit "+CLIP: ""123"",129"] (start m []) = Done (Err AttributeError) w /\ book_of (dev w) = book_of m.
Proof. eexists. split; vm_compute; reflexivity. Qed.

(** C56: the poller reports that the call is initiated, answered, ended, in this order
    and each at most once: [reported] says when.  For any handlers: *)
Theorem C56_reports : forall K (L : modem -> K) step h alive_at n m sc, performing L step h ->
  let o := poll_loop h (S (length sc)) alive_at 0 None n (start m sc) in
  exists used os reps over failed, asked (trace (last_of o)) = map (ask (lit "AT+CLCC")) used /\
    performed step (L m) reps failed (L (dev (last_of o))) /\ reported os reps over /\ poll_ends alive_at n os over failed used o.
Proof. intros K L step h al n m sc H. exact (poll_reports L step h al n m sc H). Qed.
Print Assumptions C56_reports.
(** with those of GsmModem, and the time given to dial() *)
Theorem C56_modem : forall alive_at timeout n m sc, (match timeout with Some t => if t =? 0 then n = 999999 else n = t | None => n = 999999 end) ->
  let o := pollCallStatus alive_at timeout (start m sc) in
  exists used os reps over failed, asked (trace (last_of o)) = map (ask (lit "AT+CLCC")) used /\
    performed takes_report (book_of m) reps failed (book_of (dev (last_of o))) /\ reported os reps over /\ poll_ends alive_at (2 * n) os over failed used o.
Proof. exact modem_polls. Qed.
Print Assumptions C56_modem.
Definition waiting_dial : modem := set_dialEvent (Some false) modem_init.
Example C56_example : exists w, pollCallStatus [] (Some 5) (start waiting_dial
    [Lines [lit "OK"]; Lines [lit "+CLCC: 1,0,2,0,0,""0821234567"",129"; lit "OK"]; NoReply []]) = Done (Ok tt) w /\
  dialEvent (dev w) = Some true /\ dialResponse (dev w) = Some (1, 0) /\ performing book_of takes_report modem_handlers.
Proof. eexists. split; [vm_compute; reflexivity|]. split; [vm_compute; reflexivity|]. split; [vm_compute; reflexivity|exact modem_performing]. Qed.
(** a handler fails: the id is not (yet) in the table *)
Example C56_example_race : exists w, pollCallStatus [] (Some 5) (start waiting_dial
    [Lines [lit "+CLCC: 1,0,2,0,0,""0821234567"",129"; lit "OK"]; Lines [lit "+CLCC: 1,0,0,0,0,""0821234567"",129"; lit "OK"]]) = Done (Err KeyError) w /\
  dialResponse (dev w) = Some (1, 0).
Proof. eexists. split; vm_compute; reflexivity. Qed.
