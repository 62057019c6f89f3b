(** C91, C92: several threads send USSD strings or dial, while notifications are handled
    in threads of their own.  Each theorem is closed by a lemma of MeetFinal or MeetLink;
    an example stands beside it. *)
From Verif Require Import Base UtilModel ModemCore ModemSpec SmsModel CallModel UssdModel UssdSpec TrackSpec CoverageSpec MeetModel MeetSpec MeetProofs MeetFinal MeetLink.

(** ** C91: sendUssd *)
Definition menu : ussd := mk_ussd true (Some (lit "1 Balance")).
Definition bye : ussd := mk_ussd false (Some (lit "Goodbye")).
Ltac by_steps l := apply (exec_run _ l); vm_compute; reflexivity.

(** A call that ends has failed to send its command, has found the response in the
    acknowledgement, has taken the response stored last, which is that of a notification,
    has given up waiting, or has found no Event to wait for.  It never returns None. *)
Theorem C91_ends : forall s ls s' i x, idle s -> run ussd_kind s ls s' -> (length (sy_threads s) <= i)%nat -> at_thread s' i (Calling (Over x)) ->
  ending ussd_kind i ls x.
Proof. exact (ends ussd_kind). Qed.
Print Assumptions C91_ends.
Definition plain_steps (r : ussd) : list (action ussd) := [ACall; AGo 0%nat; AWriteEnds 0%nat ok; AGo 0%nat; ANotified (Ok r); AGo 1%nat; AGo 1%nat; AGo 1%nat; AGo 0%nat; AGo 0%nat; AGo 0%nat].
Example C91_ends_example : exists ls s, idle (unused (R := ussd)) /\ run ussd_kind unused ls s /\ sy_threads s = [Calling (Over (Ok (Some menu))); Handling (Ok menu) (Handled (Ok tt))].
Proof. eexists _, _. split; [repeat split; constructor|]. split; [by_steps (plain_steps menu)|reflexivity]. Qed.
(** what "a response in the acknowledgement" is *)
Theorem C91_acknowledged : forall a, match k_ack ussd_kind a with Some y => ussd_in_ack a /\ y = parseCusdResponse a | None => ~ ussd_in_ack a end.
Proof. exact ussd_ack. Qed.
Print Assumptions C91_acknowledged.
Example C91_acknowledged_example : k_ack ussd_kind [lit "+CUSD: 2,""Goodbye"",15"; lit "OK"] = Some (Ok bye) /\ k_ack ussd_kind [lit "OK"] = None.
Proof. split; reflexivity. Qed.
(** The only call, begun while no notification is being handled, gets the response of a
    notification that has come since; if it times out, no handler has set its Event
    before.  In the end there is no Event any more. *)
Theorem C91_alone : forall s s1 i ls s' x, idle s -> act ussd_kind s ACall = Some (s1, LCalled i) -> run ussd_kind s1 ls s' -> no_call ls -> at_thread s' i (Calling (Over x)) ->
  ending_alone ussd_kind i ls x /\ sh_event (sy_shared s') = None.
Proof. exact (alone_ends ussd_kind). Qed.
Print Assumptions C91_alone.
Example C91_alone_example : exists s1 ls s', act ussd_kind unused ACall = Some (s1, LCalled 0) /\ run ussd_kind s1 ls s' /\ no_call ls /\ at_thread s' 0%nat (Calling (Over (Ok (Some menu)))).
Proof.
  eexists _, _, _. split; [reflexivity|]. split; [by_steps (tl (plain_steps menu))|]. split; [|reflexivity].
  intros i H. repeat (destruct H as [H|H]; [discriminate|]). exact H.
Qed.
(** When all threads have ended, there is no Event: the next call finds things as the
    first did. *)
Theorem C91_idle : forall s ls s', idle s -> run ussd_kind s ls s' -> Forall ended (sy_threads s') -> idle s'.
Proof. exact (idle_again ussd_kind). Qed.
Print Assumptions C91_idle.
Example C91_idle_example : exists ls s, run ussd_kind unused ls s /\ Forall ended (sy_threads s) /\ length (sy_threads s) = 3%nat.
Proof. eexists _, _. split; [by_steps (shared_steps menu 3)|]. split; [repeat constructor|reflexivity]. Qed.
(** A call whose Event is set while it waits cannot time out: it goes on, and returns a
    response, whatever the others do. *)
Theorem C91_wakes : forall s ls s' i e j, idle s -> run ussd_kind s ls s' -> at_thread s' i (Calling (Waiting e)) -> In (LFired j e) ls ->
  act ussd_kind s' (AGiveUp i) = None /\ exists s2 l, act ussd_kind s' (AGo i) = Some (s2, l) /\ at_thread s2 i (Calling Woken).
Proof. exact (wakes ussd_kind). Qed.
Print Assumptions C91_wakes.
Theorem C91_served : forall s ls s1 i e j ls' s2 x, idle s -> run ussd_kind s ls s1 -> at_thread s1 i (Calling (Waiting e)) -> In (LFired j e) ls -> run ussd_kind s1 ls' s2 ->
  at_thread s2 i (Calling (Over x)) -> exists r, x = Ok (Some r).
Proof. exact (served_ends ussd_kind). Qed.
Print Assumptions C91_served.
Example C91_served_example : exists ls s1 ls' s2, run ussd_kind unused ls s1 /\ at_thread s1 0%nat (Calling (Waiting 0)) /\ In (LFired 1 0) ls /\ run ussd_kind s1 ls' s2 /\ at_thread s2 0%nat (Calling (Over (Ok (Some menu)))).
Proof.
  eexists _, _, _, _. split; [by_steps (firstn 8 (plain_steps menu))|]. split; [reflexivity|]. split; [cbn; auto 10|]. split; [by_steps (goes (R := ussd) 0 3)|reflexivity].
Qed.
(** A handler that finds no Event does nothing.  It ends with an exception when the
    notification cannot be read, or when the Event has gone between its test and its
    setting. *)
Theorem C91_handler : forall s ls s' j c x, idle s -> run ussd_kind s ls s' -> (length (sy_threads s) <= j)%nat -> at_thread s' j (Handling c (Handled x)) ->
  In (LNotified j c) ls /\ handled_as c j ls x.
Proof. exact (handler_ends ussd_kind). Qed.
Print Assumptions C91_handler.
Example C91_handler_example : exists ls s, run ussd_kind unused ls s /\ at_thread s 1%nat (Handling (Ok menu) (Handled (Err AttributeError))).
Proof. eexists _, _. split; [by_steps (late_steps menu)|reflexivity]. Qed.
(** Violated: once another call has begun, a call that is waiting can only time out. *)
Theorem C91_forgotten : forall s ls s1 i e j e' s2 ls' s3 st, idle s -> run ussd_kind s ls s1 -> (length (sy_threads s) <= i)%nat -> at_thread s1 i (Calling (Waiting e)) -> (forall j, ~ In (LFired j e) ls) ->
  act ussd_kind s1 (AGo j) = Some (s2, LEvent j e') -> run ussd_kind s2 ls' s3 -> at_thread s3 i (Calling st) ->
  st = Waiting e \/ st = GivenUp \/ st = Over (Err (TimeoutException None)).
Proof. exact (forgotten ussd_kind). Qed.
Print Assumptions C91_forgotten.
Example C91_forgotten_example : exists ls s1 s2, run ussd_kind unused ls s1 /\ at_thread s1 0%nat (Calling (Waiting 0)) /\ (forall j, ~ In (LFired j 0) ls) /\ act ussd_kind s1 (AGo 1%nat) = Some (s2, LEvent 1 1).
Proof.
  eexists _, _, _. split; [by_steps (firstn 5 (stolen_steps menu 3))|]. split; [reflexivity|]. split; [|reflexivity].
  intros j H. repeat (destruct H as [H|H]; [discriminate|]). exact H.
Qed.
(** Violated: the response that has come for one call goes to another, and the call that
    it came for times out. *)
Theorem C91_stolen : forall r, exists ls s, run ussd_kind unused ls s /\ notified ls = [Ok r] /\
  sy_threads s = [Calling (Over (Err (TimeoutException None))); Calling (Over (Ok (Some r))); Handling (Ok r) (Handled (Ok tt))].
Proof. intro r. eexists _, _. split; [by_steps (stolen_steps r 3)|]. split; reflexivity. Qed.
Print Assumptions C91_stolen.
Example C91_stolen_example : exec ussd_kind unused (stolen_steps menu 3) <> None. Proof. discriminate. Qed.
(** Violated: two calls return the one response that has come. *)
Theorem C91_shared : forall r, exists ls s, run ussd_kind unused ls s /\ notified ls = [Ok r] /\
  sy_threads s = [Calling (Over (Ok (Some r))); Calling (Over (Ok (Some r))); Handling (Ok r) (Handled (Ok tt))].
Proof. intro r. eexists _, _. split; [by_steps (shared_steps r 3)|]. split; reflexivity. Qed.
Print Assumptions C91_shared.
Example C91_shared_example : exec ussd_kind unused (shared_steps menu 3) <> None. Proof. discriminate. Qed.
(** Violated, with one call after the other: the second call returns the response that
    has come for the first one, which has timed out, before the second one began. *)
Theorem C91_stale : forall r, exists ls1 s1 ls2 s2, run ussd_kind unused ls1 s1 /\ notified ls1 = [Ok r] /\
  Forall (fun t => match t with Calling _ => ended t | _ => True end) (sy_threads s1) /\ at_thread s1 0%nat (Calling (Over (Err (TimeoutException None)))) /\
  run ussd_kind s1 (LCalled 2 :: ls2) s2 /\ notified ls2 = [] /\ at_thread s2 2%nat (Calling (Over (Ok (Some r)))).
Proof.
  intro r. eexists _, _, _, _. split; [by_steps (firstn 8 (stale_steps r 3))|]. split; [reflexivity|]. split; [repeat constructor|]. split; [reflexivity|].
  split; [by_steps (skipn 8 (stale_steps r 3))|]. split; reflexivity.
Qed.
Print Assumptions C91_stale.
Example C91_stale_example : exec ussd_kind unused (stale_steps menu 3) <> None. Proof. discriminate. Qed.
(** Violated: a call whose string has been sent raises AttributeError because another
    call has failed. *)
Theorem C91_cleared : forall e, exists ls s, run ussd_kind unused ls s /\ In (LWrote 0 ok) ls /\
  sy_threads s = [Calling (Over (Err AttributeError)); Calling (Over (Err e))].
Proof. intro e. eexists _, _. split; [by_steps (cleared_steps (R := ussd) e)|]. split; [cbn; auto 10|reflexivity]. Qed.
Print Assumptions C91_cleared.
Example C91_cleared_example : exec ussd_kind unused (cleared_steps (TimeoutException None)) <> None. Proof. discriminate. Qed.
(** A thread on its own does what the methods do. *)
Theorem C91_is_start : forall s m sc i h r w, meets (ussdEvent m) (ussdResponse m) h -> sendUssd_start s (start m sc) = Done r w ->
  exists x h', exchange (ussd_command s) [13] (trace w) x /\ meets (ussdEvent (dev w)) (ussdResponse (dev w)) h' /\
    call_alone ussd_kind i h Begin [x] h' (match r with Ok None => Waiting (sh_made h) | Ok (Some u) => Over (Ok (Some u)) | Err e => Over (Err e) end) /\
    (r = Ok None -> sh_event h' = Some (sh_made h)).
Proof. exact ussd_start_is. Qed.
Print Assumptions C91_is_start.
Theorem C91_is_finish : forall m sc i h e r w, meets (ussdEvent m) (ussdResponse m) h -> sh_event h = Some e -> sendUssd_finish (start m sc) = Done r w ->
  exists h', call_alone ussd_kind i h (Waiting e) [] h' (Over r) /\ meets (ussdEvent (dev w)) (ussdResponse (dev w)) h'.
Proof. exact ussd_finish_is. Qed.
Print Assumptions C91_is_finish.
Theorem C91_is_handler : forall lines m sc j h x w, meets (ussdEvent m) (ussdResponse m) h -> handleUssd lines (start m sc) = Done x w ->
  exists h', handler_alone j (parseCusdResponse lines) h Test h' (Handled x) /\ meets (ussdEvent (dev w)) (ussdResponse (dev w)) h'.
Proof. exact ussd_handler_is. Qed.
Print Assumptions C91_is_handler.
Example C91_is_example : meets (ussdEvent modem_init) (ussdResponse modem_init) (mk_shared None None [] 0%nat []) /\
  exists w, sendUssd_start (lit "*100#") (start modem_init [Lines [lit "OK"]]) = Done (Ok None) w.
Proof. split; [repeat split; constructor|]. eexists. vm_compute. reflexivity. Qed.

(** ** C92: dial *)
Definition dial_steps : list (action (Z * Z)) := [ACall; AGo 0%nat; AWriteEnds 0%nat ok; AGo 0%nat; ANotified (Ok (1, 0)); AGo 1%nat; AGo 1%nat; AGo 1%nat; AGo 0%nat; AGo 0%nat; AGo 0%nat; AGo 0%nat].
(** A call of dial that ends has failed to send its command, has taken the announcement
    stored last, which is that of a notification, has given up waiting or has found no
    Event to wait for. *)
Theorem C92_ends : forall s ls s' i x, idle s -> run dial_kind s ls s' -> (length (sy_threads s) <= i)%nat -> at_thread s' i (Calling (Over x)) ->
  ending dial_kind i ls x.
Proof. exact (ends dial_kind). Qed.
Print Assumptions C92_ends.
Example C92_ends_example : exists ls s, run dial_kind unused ls s /\ sy_threads s = [Calling (Over (Ok (Some (1, 0)))); Handling (Ok (1, 0)) (Handled (Ok tt))] /\ sh_calls (sy_shared s) = [(1, 0%nat)].
Proof. eexists _, _. split; [by_steps dial_steps|]. split; reflexivity. Qed.
(** The only call, begun while no notification is being handled, gets an announcement
    that has come since, and is entered under its id; a call that fails is not entered. *)
Theorem C92_alone : forall s s1 i ls s' x, idle s -> act dial_kind s ACall = Some (s1, LCalled i) -> run dial_kind s1 ls s' -> no_call ls -> at_thread s' i (Calling (Over x)) ->
  ending_alone dial_kind i ls x /\ sh_event (sy_shared s') = None.
Proof. exact (alone_ends dial_kind). Qed.
Print Assumptions C92_alone.
Theorem C92_entered : forall s s1 i ls s' x, idle s -> act dial_kind s ACall = Some (s1, LCalled i) -> run dial_kind s1 ls s' -> no_call ls -> at_thread s' i (Calling (Over x)) ->
  sh_calls (sy_shared s') = match x with Ok (Some (id, _)) => zset (sh_calls (sy_shared s)) id i | _ => sh_calls (sy_shared s) end.
Proof. intros s s1 i ls s' x I A H N T. rewrite (alone_table dial_kind s s1 i ls s' x (fun _ => eq_refl) I A H N T). destruct x as [[[id ty]|]|]; reflexivity. Qed.
Print Assumptions C92_entered.
Example C92_alone_example : exists s1 ls s', act dial_kind unused ACall = Some (s1, LCalled 0) /\ run dial_kind s1 ls s' /\ no_call ls /\ at_thread s' 0%nat (Calling (Over (Ok (Some (1, 0))))).
Proof.
  eexists _, _, _. split; [reflexivity|]. split; [by_steps (tl dial_steps)|]. split; [|reflexivity].
  intros i H. repeat (destruct H as [H|H]; [discriminate|]). exact H.
Qed.
Theorem C92_idle : forall s ls s', idle s -> run dial_kind s ls s' -> Forall ended (sy_threads s') -> idle s'.
Proof. exact (idle_again dial_kind). Qed.
Print Assumptions C92_idle.
Theorem C92_wakes : forall s ls s' i e j, idle s -> run dial_kind s ls s' -> at_thread s' i (Calling (Waiting e)) -> In (LFired j e) ls ->
  act dial_kind s' (AGiveUp i) = None /\ exists s2 l, act dial_kind s' (AGo i) = Some (s2, l) /\ at_thread s2 i (Calling Woken).
Proof. exact (wakes dial_kind). Qed.
Print Assumptions C92_wakes.
Theorem C92_served : forall s ls s1 i e j ls' s2 x, idle s -> run dial_kind s ls s1 -> at_thread s1 i (Calling (Waiting e)) -> In (LFired j e) ls -> run dial_kind s1 ls' s2 ->
  at_thread s2 i (Calling (Over x)) -> exists r, x = Ok (Some r).
Proof. exact (served_ends dial_kind). Qed.
Print Assumptions C92_served.
Example C92_served_example : exists ls s1 ls' s2, run dial_kind unused ls s1 /\ at_thread s1 0%nat (Calling (Waiting 0)) /\ In (LFired 1 0) ls /\ run dial_kind s1 ls' s2 /\ at_thread s2 0%nat (Calling (Over (Ok (Some (1, 0))))).
Proof.
  eexists _, _, _, _. split; [by_steps (firstn 8 dial_steps)|]. split; [reflexivity|]. split; [cbn; auto 10|]. split; [by_steps (goes (R := Z * Z) 0 4)|reflexivity].
Qed.
Theorem C92_handler : forall s ls s' j c x, idle s -> run dial_kind s ls s' -> (length (sy_threads s) <= j)%nat -> at_thread s' j (Handling c (Handled x)) ->
  In (LNotified j c) ls /\ handled_as c j ls x.
Proof. exact (handler_ends dial_kind). Qed.
Print Assumptions C92_handler.
Example C92_handler_example : exists ls s, run dial_kind unused ls s /\ at_thread s 1%nat (Handling (Ok (1, 0)) (Handled (Err AttributeError))).
Proof. eexists _, _. split; [by_steps (late_steps (1, 0))|reflexivity]. Qed.
(** Violated, as in C91. *)
Theorem C92_forgotten : forall s ls s1 i e j e' s2 ls' s3 st, idle s -> run dial_kind s ls s1 -> (length (sy_threads s) <= i)%nat -> at_thread s1 i (Calling (Waiting e)) -> (forall j, ~ In (LFired j e) ls) ->
  act dial_kind s1 (AGo j) = Some (s2, LEvent j e') -> run dial_kind s2 ls' s3 -> at_thread s3 i (Calling st) ->
  st = Waiting e \/ st = GivenUp \/ st = Over (Err (TimeoutException None)).
Proof. exact (forgotten dial_kind). Qed.
Print Assumptions C92_forgotten.
Example C92_forgotten_example : exists ls s1 s2, run dial_kind unused ls s1 /\ at_thread s1 0%nat (Calling (Waiting 0)) /\ (forall j, ~ In (LFired j 0) ls) /\ act dial_kind s1 (AGo 1%nat) = Some (s2, LEvent 1 1).
Proof.
  eexists _, _, _. split; [by_steps (firstn 5 (stolen_steps (1, 0) 4))|]. split; [reflexivity|]. split; [|reflexivity].
  intros j H. repeat (destruct H as [H|H]; [discriminate|]). exact H.
Qed.
(** Violated: a dial gets the announcement of the call of another dial, which times out;
    its call is not entered. *)
Theorem C92_stolen : forall id ty, exists ls s, run dial_kind unused ls s /\ notified ls = [Ok (id, ty)] /\
  sy_threads s = [Calling (Over (Err (TimeoutException None))); Calling (Over (Ok (Some (id, ty)))); Handling (Ok (id, ty)) (Handled (Ok tt))] /\ sh_calls (sy_shared s) = [(id, 1%nat)].
Proof. intros id ty. eexists _, _. split; [by_steps (stolen_steps (id, ty) 4)|]. split; [reflexivity|]. split; reflexivity. Qed.
Print Assumptions C92_stolen.
Example C92_stolen_example : exec dial_kind unused (stolen_steps (1, 0) 4) <> None. Proof. discriminate. Qed.
(** Violated: two dials return calls with the same id, and only one of them is entered. *)
Theorem C92_shared : forall id ty, exists ls s, run dial_kind unused ls s /\ notified ls = [Ok (id, ty)] /\
  sy_threads s = [Calling (Over (Ok (Some (id, ty)))); Calling (Over (Ok (Some (id, ty)))); Handling (Ok (id, ty)) (Handled (Ok tt))] /\ sh_calls (sy_shared s) = [(id, 1%nat)].
Proof.
  intros id ty. eexists _, _. split; [apply (exec_run _ (shared_steps (id, ty) 4)); cbv -[Z.eqb]; rewrite Z.eqb_refl; reflexivity|]. split; [reflexivity|]. split; reflexivity.
Qed.
Print Assumptions C92_shared.
Example C92_shared_example : exec dial_kind unused (shared_steps (1, 0) 4) <> None. Proof. discriminate. Qed.
(** Violated: a dial returns with the announcement of the call that the dial before it
    had not waited for any longer. *)
Theorem C92_stale : forall id ty, exists ls1 s1 ls2 s2, run dial_kind unused ls1 s1 /\ notified ls1 = [Ok (id, ty)] /\
  Forall (fun t => match t with Calling _ => ended t | _ => True end) (sy_threads s1) /\ at_thread s1 0%nat (Calling (Over (Err (TimeoutException None)))) /\
  run dial_kind s1 (LCalled 2 :: ls2) s2 /\ notified ls2 = [] /\ at_thread s2 2%nat (Calling (Over (Ok (Some (id, ty))))) /\ sh_calls (sy_shared s2) = [(id, 2%nat)].
Proof.
  intros id ty. eexists _, _, _, _. split; [by_steps (firstn 8 (stale_steps (id, ty) 4))|]. split; [reflexivity|]. split; [repeat constructor|]. split; [reflexivity|].
  split; [by_steps (skipn 8 (stale_steps (id, ty) 4))|]. split; [reflexivity|]. split; reflexivity.
Qed.
Print Assumptions C92_stale.
Example C92_stale_example : exec dial_kind unused (stale_steps (1, 0) 4) <> None. Proof. discriminate. Qed.
Theorem C92_cleared : forall e, exists ls s, run dial_kind unused ls s /\ In (LWrote 0 ok) ls /\
  sy_threads s = [Calling (Over (Err AttributeError)); Calling (Over (Err e))].
Proof. intro e. eexists _, _. split; [by_steps (cleared_steps (R := Z * Z) e)|]. split; [cbn; auto 10|reflexivity]. Qed.
Print Assumptions C92_cleared.
Example C92_cleared_example : exec dial_kind unused (cleared_steps (TimeoutException None)) <> None. Proof. discriminate. Qed.
(** A thread on its own does what the methods do. *)
Theorem C92_is_start : forall number cb m sc i h r w, waitInit m = true -> meets (dialEvent m) (dialResponse m) h -> dial_start number cb (start m sc) = Done r w ->
  exists x h', (waitAtd m = true -> exchange (dial_command number) [13] (trace w) x) /\ (waitAtd m = false -> asked (trace w) = [(dial_command number ++ [13], None)] /\ x = Ok []) /\
    meets (dialEvent (dev w)) (dialResponse (dev w)) h' /\
    call_alone dial_kind i h Begin [x] h' (match r with Ok _ => Waiting (sh_made h) | Err e => Over (Err e) end) /\
    (forall o, r = Ok o -> o = None /\ sh_event h' = Some (sh_made h)) /\ sh_calls h' = sh_calls h.
Proof. exact dial_start_is. Qed.
Print Assumptions C92_is_start.
Theorem C92_is_finish : forall number cb m sc i h e r w, meets (dialEvent m) (dialResponse m) h -> sh_event h = Some e -> dial_finish number cb (start m sc) = Done r w ->
  exists h', meets (dialEvent (dev w)) (dialResponse (dev w)) h' /\
  match r with
  | Ok n => exists id ty, dialResponse m = Some (id, ty) /\ call_alone dial_kind i h (Waiting e) [] h' (Over (Ok (Some (id, ty)))) /\ sh_calls h' = zset (sh_calls h) id i /\
      activeCalls (dev w) = zset (activeCalls m) id n /\ nth_error (callObjs (dev w)) n = Some (new_call id ty number cb)
  | Err er => call_alone dial_kind i h (Waiting e) [] h' (Over (Err er)) /\ sh_calls h' = sh_calls h /\ activeCalls (dev w) = activeCalls m
  end.
Proof. exact dial_finish_is. Qed.
Print Assumptions C92_is_finish.
Theorem C92_is_handler : forall g id ty m sc j h x w, meets (dialEvent m) (dialResponse m) h -> handleCallInitiated g id ty (start m sc) = Done x w ->
  exists h', handler_alone j (announced g id ty) h Test h' (Handled x) /\ meets (dialEvent (dev w)) (dialResponse (dev w)) h'.
Proof. exact dial_handler_is. Qed.
Print Assumptions C92_is_handler.
Example C92_is_example : waitInit (set_waitInit true modem_init) = true /\ meets (dialEvent modem_init) (dialResponse modem_init) (mk_shared None None [] 0%nat []) /\
  exists w, dial_start (lit "123") false (start (set_waitInit true modem_init) [Lines [lit "OK"]]) = Done (Ok None) w.
Proof. split; [reflexivity|]. split; [repeat split; constructor|]. eexists. vm_compute. reflexivity. Qed.
