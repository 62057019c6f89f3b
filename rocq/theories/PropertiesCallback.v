(** Properties: callbacks that fail, or that use the modem. *)
From Verif Require Import Base ModemCore ModemSpec MonadProofs SendSpec TrackSpec CoverageSpec SmsModel StoreSpec ListSpec CallModel NotifyModel PollSpec BookSpec BookProofs CallbackModel CallbackSpec
  CallbackProofs CallbackFinal CallbackCalls CallbackNews.

(** C83: messages.  With callbacks that only return, the handlers are those of the other
    properties. *)
Theorem C83_idle : forall w,
  (forall unreadOnly, processStoredSms_with idle unreadOnly w = processStoredSms unreadOnly w) /\ (forall lines, handleNotification_with idle lines w = handleNotification lines w) /\
  (forall r, handles_report_with idle r w = handles_report r w) /\ (forall n, hangup_with idle n w = hangup n w) /\ (forall n, answer_with idle n w = answer n w).
Proof. exact (fun w => conj (fun b => idle_process b w) (conj (fun l => idle_notification l w) (conj (fun r => idle_reports r w) (conj (fun n => idle_hangup n w) (fun n => idle_answer n w))))). Qed.
Print Assumptions C83_idle.
(** processStoredSms: for each status the messages are listed and deleted, all of them,
    and then passed one by one; the first callback that does not return ends it. *)
Theorem C83_processing : forall a (unreadOnly : bool) w, exists lost, processes (on_sms a) (if unreadOnly then [0] else [1; 0]) w lost (processStoredSms_with a unreadOnly w).
Proof. exact processing. Qed.
Print Assumptions C83_processing.
Theorem C83_raising : forall a e unreadOnly w, (forall s w, on_sms a s w = Done (Err e) w) ->
  let o := processStoredSms_with a unreadOnly w in
  exists evs, trace (last_of o) = trace w ++ evs /\ (length (passed evs) <= 1)%nat /\ (passed evs = [] \/ exists w', o = Done (Err e) w').
Proof. exact raising. Qed.
Print Assumptions C83_raising.
(** The handlers of notifications call back last: the callback starts in the state that
    the handler leaves when the callback does nothing, and what it does is the result. *)
Theorem C83_received : forall a line w,
  (forall w1 pre s, handleSmsReceived line w = Done (Ok tt) w1 -> trace w1 = trace w ++ pre ++ [ESms s] -> handleSmsReceived_with a line w = on_sms a s w1) /\
  (forall evs, trace (last_of (handleSmsReceived line w)) = trace w ++ evs -> passed evs = [] -> handleSmsReceived_with a line w = handleSmsReceived line w).
Proof. exact received_last. Qed.
Print Assumptions C83_received.
Theorem C83_reported : forall a line w,
  (forall w1 pre s, handleSmsStatusReport line w = Done (Ok tt) w1 -> trace w1 = trace w ++ pre ++ [EReport s] -> handleSmsStatusReport_with a line w = on_report a s w1) /\
  (forall evs, trace (last_of (handleSmsStatusReport line w)) = trace w ++ evs -> reported_to evs = [] -> handleSmsStatusReport_with a line w = handleSmsStatusReport line w).
Proof. exact report_last. Qed.
Print Assumptions C83_reported.
Theorem C83_ring : forall a lines w,
  match handleIncomingCall lines w with
  | Done (Ok _) w1 => exists pre n, trace w1 = pre ++ [ERing n] /\ handleIncomingCall_with a lines w = on_ring a n w1
  | o => handleIncomingCall_with a lines w = o
  end.
Proof. exact ring_last. Qed.
Print Assumptions C83_ring.

Definition header (i status : str) : str := lit "+CMGL: " ++ i ++ lit ",""" ++ status ++ lit """,""+27821234567"",,""13/02/03,15:31:49+08""".
Definition two_unread : reply := Lines [header (lit "2") (lit "REC UNREAD"); lit "one"; header (lit "5") (lit "REC UNREAD"); lit "two"; lit "OK"].
Definition one_read : reply := Lines [header (lit "4") (lit "REC READ"); lit "old"; lit "OK"].
Definition on_wire (w : world) : list str := flat_map (fun e => match e with EWrite t _ => [t] | _ => [] end) (trace w).
Definition ok : reply := Lines [lit "OK"].
Definition texts (o : out unit) : list str := flat_map (fun s => match s with Received _ _ _ t _ => [t] | _ => [] end) (passed (trace (last_of o))).
Definition texting : modem := set_smsTextMode true modem_init.
(** a callback that raises for "one" *)
Definition picky : client :=
  mk_client (fun s => match s with Received _ _ _ t _ => if str_eqb t (lit "one") then raise ValueError else ret tt | _ => ret tt end) (fun _ => ret tt) (fun _ => ret tt) (fun _ => ret tt).
(** the message "two" is deleted and nobody ever sees it *)
Example C83_example : exists w', processStoredSms_with picky false (start texting [one_read; ok; two_unread; ok; ok]) = Done (Err ValueError) w' /\
  texts (Done (Ok tt) w') = [lit "old"; lit "one"] /\ on_wire w' = map (fun s => s ++ [13]) [lit "AT+CMGL=""REC READ"""; lit "AT+CMGD=4,0"; lit "AT+CMGL=""REC UNREAD"""; lit "AT+CMGD=2,0"; lit "AT+CMGD=5,0"].
Proof. eexists. split; [vm_compute; reflexivity|]. split; vm_compute; reflexivity. Qed.
(** a callback that reads another message: its command comes after the deletions *)
Definition reading : client := mk_client (fun s => readStoredSms (lit "7") None ;;; ret tt) (fun _ => ret tt) (fun _ => ret tt) (fun _ => ret tt).
Example C83_example_reading : exists w', processStoredSms_with reading true (start texting [two_unread; ok; ok; Lines [lit "ERROR"]]) = Done (Err (CommandError (Some (lit "AT+CMGR=7")))) w' /\
  texts (Done (Ok tt) w') = [lit "one"] /\ on_wire w' = map (fun s => s ++ [13]) [lit "AT+CMGL=""REC UNREAD"""; lit "AT+CMGD=2,0"; lit "AT+CMGD=5,0"; lit "AT+CMGR=7"].
Proof. eexists. split; [vm_compute; reflexivity|]. split; vm_compute; reflexivity. Qed.
(** one that switches to PDU mode between the two listings *)
Definition switching : client := mk_client (fun s => modify (set_smsTextMode false)) (fun _ => ret tt) (fun _ => ret tt) (fun _ => ret tt).
Example C83_example_switching : exists w', processStoredSms_with switching false (start texting [one_read; ok; Lines [lit "OK"]]) = Done (Ok tt) w' /\
  on_wire w' = map (fun s => s ++ [13]) [lit "AT+CMGL=""REC READ"""; lit "AT+CMGD=4,0"; lit "AT+CMGL=0"].
Proof. eexists. split; vm_compute; reflexivity. Qed.
Example C83_example_raising : exists w', processStoredSms_with (mk_client (fun _ => raise ValueError) (fun _ => ret tt) (fun _ => ret tt) (fun _ => ret tt)) true (start texting [two_unread; ok; ok]) = Done (Err ValueError) w' /\
  texts (Done (Ok tt) w') = [lit "one"].
Proof. eexists. split; vm_compute; reflexivity. Qed.
Definition answering : client := mk_client (fun _ => ret tt) (fun _ => ret tt) (fun n => answer_with idle n) (fun _ => ret tt).
Example C83_example_ring : exists w', handleNotification_with answering [lit "RING"] (start modem_init [ok]) = Done (Ok tt) w' /\ on_wire w' = [lit "ATA" ++ [13]] /\
  map (fun c => (c_answered c, c_ringing c)) (callObjs (dev w')) = [(true, false)].
Proof. eexists. split; [vm_compute; reflexivity|]. split; vm_compute; reflexivity. Qed.
Example C83_example_received : exists w', handleNotification_with picky [lit "+CMTI: ""SM"",2"] (start (set_memRead (Some (lit "SM")) texting)
    [Lines [lit "+CMGR: ""REC UNREAD"",""+27821234567"",,""13/02/03,15:31:49+08"""; lit "one"; lit "OK"]; ok]) = Done (Err ValueError) w' /\
  texts (Done (Ok tt) w') = [lit "one"] /\ on_wire w' = [lit "AT+CMGR=2" ++ [13]; lit "AT+CMGD=2,0" ++ [13]].
Proof. eexists. split; [vm_compute; reflexivity|]. split; vm_compute; reflexivity. Qed.
Example C83_example_reported : exists w', handleNotification_with (mk_client (fun _ => ret tt) (fun _ => raise KeyError) (fun _ => ret tt) (fun _ => ret tt)) [lit "+CDSI: ""SM"",3"]
    (start (set_memRead (Some (lit "SM")) texting) [Lines [lit "+CMGR: ""REC UNREAD"",6,20,""0870000000"",129,""13/04/29,19:58:00+04"",""13/04/29,19:59:00+04"",0"; lit "OK"]; ok]) = Done (Err KeyError) w' /\
  length (reported_to (trace w')) = 1%nat /\ on_wire w' = [lit "AT+CMGR=3" ++ [13]; lit "AT+CMGD=3,0" ++ [13]].
Proof. eexists. split; [vm_compute; reflexivity|]. split; vm_compute; reflexivity. Qed.

(** C84: calls.  A notification about a call is one of the reports below. *)
Theorem C84_notified : forall a before line after n r w, sound_book (book_of (dev w)) -> Forall (unrelated (callUpdates (dev w))) before -> call_news (callUpdates (dev w)) line n ->
  means (book_of (dev w)) n r -> handleNotification_with a (before ++ line :: after) w = match r with Some r => handles_report_with a r w | None => Done (Ok tt) w end.
Proof. exact noted_with. Qed.
Print Assumptions C84_notified.
(** the call is marked as answered before the callback, which comes last *)
Theorem C84_answered : forall a id n c w, sound_book (book_of (dev w)) -> In (id, n) (activeCalls (dev w)) -> nth_error (callObjs (dev w)) n = Some c -> c_callback c = true ->
  exists w1, flagged n true w w1 /\ handleCallAnswered_with a None id w = on_status a n w1.
Proof. exact answered_calls_back. Qed.
Print Assumptions C84_answered.
(** The end of a call is told while the call is still in the table and active.  What the
    callback leaves in the table under that id is what is ended afterwards. *)
Theorem C84_ended : forall a id n c f w, sound_book (book_of (dev w)) -> id <> 0 -> In (id, n) (activeCalls (dev w)) -> nth_error (callObjs (dev w)) n = Some c -> c_callback c = true ->
  exists w1, flagged n false w w1 /\
    match on_status a n w1 with
    | Done (Ok _) w2 => closes id w2 (handleCallEnded_with a None (Some id) f w)
    | o => handleCallEnded_with a None (Some id) f w = o
    end.
Proof. exact ended_calls_back. Qed.
Print Assumptions C84_ended.
(** a callback that does not touch calls and returns *)
Theorem C84_as_before : forall a id n c f w w', sound_book (book_of (dev w)) -> id <> 0 -> In (id, n) (activeCalls (dev w)) -> nth_error (callObjs (dev w)) n = Some c -> c_callback c = true ->
  leaves_calls (on_status a n) -> handleCallEnded_with a None (Some id) f w = Done (Ok tt) w' ->
  at_call n now_ended (callObjs (dev w)) (callObjs (dev w')) /\ without id (activeCalls (dev w)) (activeCalls (dev w')).
Proof. exact ended_as_before. Qed.
Print Assumptions C84_as_before.
(** one that raises: the call stays in the table, and active *)
Theorem C84_interrupted : forall a id n c f w, sound_book (book_of (dev w)) -> id <> 0 -> In (id, n) (activeCalls (dev w)) -> nth_error (callObjs (dev w)) n = Some c -> c_callback c = true ->
  leaves_calls (on_status a n) -> abrupt (handleCallEnded_with a None (Some id) f w) ->
  let m := dev (last_of (handleCallEnded_with a None (Some id) f w)) in
  at_call n (now_flagged false) (callObjs (dev w)) (callObjs m) /\ activeCalls m = activeCalls (dev w).
Proof. exact ended_interrupted. Qed.
Print Assumptions C84_interrupted.
(** one that hangs the call up, as it is still active: it is called again by its own
    call of hangup(), with one ATH for each, until the recursion is too deep *)
Theorem C84_forever : forall e k n c w, nth_error (callObjs (dev w)) n = Some c -> c_active c = true -> c_callback c = true ->
  let o := hangup_with (hanging e k) n w in abrupt o /\ only_flags n (dev w) (dev (last_of o)).
Proof. exact hangs_forever. Qed.
Print Assumptions C84_forever.
Theorem C84_counted : forall e k j n c w, nth_error (callObjs (dev w)) n = Some c -> c_active c = true -> c_callback c = true -> script w = all_ok j ->
  let o := hangup_with (hanging e k) n w in
  if (j <=? k)%nat then (exists w', o = Stuck w') /\ asked (trace (last_of o)) = asked (trace w) ++ repeat ATH_OK j
  else (exists w', o = Done (Err e) w') /\ asked (trace (last_of o)) = asked (trace w) ++ repeat ATH_OK (S k).
Proof. exact hangs_counted. Qed.
Print Assumptions C84_counted.
(** one that does so once: the handler of the notification fails with KeyError *)
Theorem C84_once : forall id n c f w rest, sound_book (book_of (dev w)) -> id <> 0 -> In (id, n) (activeCalls (dev w)) -> nth_error (callObjs (dev w)) n = Some c -> c_callback c = true ->
  script w = Lines [lit "OK"] :: rest ->
  exists w' c', handleCallEnded_with hanging_once None (Some id) f w = Done (Err KeyError) w' /\ without id (activeCalls (dev w)) (activeCalls (dev w')) /\
    nth_error (callObjs (dev w')) n = Some c' /\ c_active c' = false /\ c_answered c' = false /\ asked (trace w') = asked (trace w) ++ [ATH_OK].
Proof. exact once_fails. Qed.
Print Assumptions C84_once.
(** Whatever callbacks do, also when they are nested and when they raise: in the table
    are active calls, each under its own id, and no id twice. *)
Theorem C84_table : forall a A (c : M A) w, nested a -> uses a A c -> sound_book (book_of (dev w)) ->
  sound_book (book_of (dev (last_of (c w)))) /\ same_ids (dev w) (dev (last_of (c w))).
Proof. exact nested_sound. Qed.
Print Assumptions C84_table.

(** a call with status callback that has been answered *)
Definition talking : modem := set_callObjs [mk_call 1 false (Some 0) (Some (lit "123")) true true true false 0] (set_activeCalls [(1, 0%nat)] (set_waitInit true (set_callUpdates THuawei modem_init))).
Lemma talking_sound : sound_book (book_of talking).
Proof. split; [repeat constructor; cbn; tauto|]. intros id n [[= <- <-]|[]]. eexists. split; [reflexivity|]. auto. Qed.
Definition cend : list str := [lit "^BOOT:1"; lit "^CEND:1,0,8,104"].
Definition rejecting : client := mk_client (fun _ => ret tt) (fun _ => ret tt) (fun _ => ret tt) (fun _ => raise ValueError).
Example C84_example_raising : exists w', handleNotification_with rejecting cend (start talking []) = Done (Err ValueError) w' /\
  map c_active (callObjs (dev w')) = [true] /\ activeCalls (dev w') = [(1, 0%nat)].
Proof. eexists. split; [vm_compute; reflexivity|]. split; vm_compute; reflexivity. Qed.
Example C84_example_once : exists w', handleNotification_with hanging_once cend (start talking [ok]) = Done (Err KeyError) w' /\
  map c_active (callObjs (dev w')) = [false] /\ activeCalls (dev w') = [] /\ on_wire w' = [lit "ATH" ++ [13]].
Proof. eexists. split; [vm_compute; reflexivity|]. repeat split; vm_compute; reflexivity. Qed.
Example C84_example_forever : exists w', handleNotification_with (hanging ValueError 5) cend (start talking (all_ok 6)) = Done (Err ValueError) w' /\
  map c_active (callObjs (dev w')) = [true] /\ activeCalls (dev w') = [(1, 0%nat)] /\ on_wire w' = repeat (lit "ATH" ++ [13]) 5.
Proof. eexists. split; [vm_compute; reflexivity|]. repeat split; vm_compute; reflexivity. Qed.
(** A callback that dials again.  The modem gives the new call the id of the one that has
    ended: the new call is taken for it, the old one stays active. *)
Definition redialling : client := mk_client (fun _ => ret tt) (fun _ => ret tt) (fun _ => ret tt)
  (fun n => dial_start (lit "456") false ;;; handleNotification_with idle [lit "^ORIG:1,0"] ;;; dial_finish (lit "456") false ;;; ret tt).
Example C84_example_redial : exists w', handleNotification_with redialling cend (start talking [ok]) = Done (Ok tt) w' /\
  map (fun c => (c_number c, c_active c)) (callObjs (dev w')) = [(Some (lit "123"), true); (Some (lit "456"), false)] /\ activeCalls (dev w') = [].
Proof. eexists. split; [vm_compute; reflexivity|]. split; vm_compute; reflexivity. Qed.
(** these callbacks are among those of C84_table *)
Lemma uses_ret a A (x : A) : uses a A (ret x). Proof. apply us_other. intro w. auto. Qed.
Lemma uses_raise a A e : uses a A (raise e). Proof. apply us_other. intro w. auto. Qed.
Example C84_example_nested : nested redialling /\ nested rejecting /\ (forall e k, nested (hanging e k)) /\ uses redialling unit (handleNotification_with redialling cend).
Proof.
  set (limit := mk_client (fun _ => raise ValueError) (fun _ => raise ValueError) (fun _ => raise ValueError) (fun _ => raise ValueError)).
  assert (L : nested limit) by apply ne_limit.
  assert (Id : nested idle) by (apply (ne_next idle limit); auto; intro; apply uses_ret).
  split; [|split; [|split]].
  - apply (ne_next redialling idle); auto; try (intro; apply uses_ret). intro n. apply us_seq; [apply us_dial|intros _]. apply us_seq; [apply us_notification|intros _]. apply us_seq; [apply us_dial_end|intros _; apply uses_ret].
  - apply (ne_next rejecting idle); auto; intro; first [apply uses_ret|apply uses_raise].
  - intros e k. induction k as [|k IH].
    + apply (ne_next (hanging e 0) idle); auto; intro; first [apply uses_ret|apply uses_raise].
    + apply (ne_next (hanging e (S k)) (hanging e k)); auto; try (intro; apply uses_ret). intro n. cbn [hanging on_status]. apply us_seq; [apply us_other; intro w; auto|intro m].
      destruct (c_answered _); [apply uses_ret|apply us_hangup].
  - apply us_notification.
Qed.
