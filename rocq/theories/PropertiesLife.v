(** Properties C75, C76: connect, close and errors of the serial port. *)
From Verif Require Import Base RegexModel SerialModel SerialSpec LifeModel LifeSpec LifeProofs.

(** C75: once close() has returned nothing is read, sorted, passed on or sent, until
    the next connect(). *)
Theorem C75_closed : forall tr s a b, lrun l_init tr s -> llabels tr = a ++ LClosed :: b -> ~ In LConnect b ->
  Forall (fun l => ~ delivers l /\ ~ sends l /\ l <> LError /\ l <> LFatal) b.
Proof. exact after_closed. Qed.
Print Assumptions C75_closed.
(** After an error of the port nothing more is read or passed on, the error callback
    is called once, and then nothing more is sent. *)
Theorem C75_error : forall tr s a b, lrun l_init tr s -> llabels tr = a ++ LError :: b -> ~ In LConnect b -> Forall (fun l => ~ delivers l) b.
Proof. exact after_error. Qed.
Print Assumptions C75_error.
Theorem C75_fatal : forall tr s a b, lrun l_init tr s -> llabels tr = a ++ LFatal :: b -> ~ In LConnect b ->
  Forall (fun l => ~ delivers l /\ ~ sends l /\ l <> LError /\ l <> LFatal) b.
Proof. exact after_fatal. Qed.
Print Assumptions C75_fatal.
Theorem C75_fatal_once : forall tr s, lrun l_init tr s ->
  errors (llabels tr) = (fatals (llabels tr) + match loop s with PDown | PShut | PFatal => 1 | _ => 0 end)%nat.
Proof. exact fatal_once. Qed.
Print Assumptions C75_fatal_once.
(** After alive has become False the read thread takes at most 13 steps, and can
    take the next one unless it has ended; then close() can return. *)
Theorem C75_ends : forall tr0 s tr s', lrun l_init tr0 s -> up s = false -> lrun s tr s' -> ~ In LConnect (llabels tr) ->
  (length (filter reader_moves tr) <= 13)%nat /\ (loop s' = PGone \/ forall i e, lact s' (DRead i e) <> None).
Proof. exact reader_ends. Qed.
Print Assumptions C75_ends.
Theorem C75_returns : forall tr0 s, lrun l_init tr0 s -> owner s = OJoin -> loop s = PGone ->
  exists s1 s2, lact s DClose = Some (s1, LStep) /\ lact s1 DClose = Some (s2, LClosed).
Proof. exact close_returns. Qed.
Print Assumptions C75_returns.
(** Until a write fails or connect() is called again, the execution is one of
    SerialModel, so that C35-C40 hold of it. *)
Theorem C75_serial : forall tr s, lrun l_init tr s -> (forall i b, ~ In (LFail i b) (llabels tr)) -> ~ In LConnect (llabels tr) ->
  run s_init (erase tr) (base s).
Proof. exact erase_run. Qed.
Print Assumptions C75_serial.
Theorem C75_serial_labels : forall tr s, lrun l_init tr s -> labels (erase tr) = base_labels (llabels tr).
Proof. exact erase_labels. Qed.
Print Assumptions C75_serial_labels.
Example C75_example :
  life_shown (lline (lit "RING") false ++ [DClose; rt; DClose; DClose] ++ repeat (DWrite 0 (tosend (lit "AT")) false) 5) =
    Some [LBase (LLine (lit "RING") true); LBase (LNotify (lit "RING")); LBase (LCallback [lit "RING"]);
          LClosing; LEnd; LClosed; LBase (LStart 0); LFail 0 true] /\
  life_shown ([DClose; DClose]) = None /\
  life_shown ([rt; DRead (mk_rin None true) true; rt; rt; rt] ++ repeat (DWrite 0 (tosend (lit "AT")) false) 5) =
    Some [LError; LFatal; LBase (LStart 0); LFail 0 true].
Proof. vm_compute. auto. Qed.

(** C76: what an earlier connection leaves behind.  If no write ever failed, none is
    in progress and no notification is half read, connect() gives a clean start. *)
Theorem C76_clean : forall tr s s', lrun l_init tr s -> (forall i b, ~ In (LFail i b) (llabels tr)) -> lact s DConnect = Some (s', LConnect) ->
  (forall i, writer (base s) i = WIdle) -> notif (base s) = [] -> like_new s'.
Proof. exact connect_clean. Qed.
Print Assumptions C76_clean.
Example C76_clean_example : exists tr s s', lexec l_init (lline (lit "RING") false ++ [DClose; rt; DClose; DClose]) = Some (tr, s) /\
  lact s DConnect = Some (s', LConnect) /\ notif (base s) = [].
Proof. eexists _, _, _. split; [vm_compute; reflexivity|]. vm_compute. auto. Qed.
(** Lines of a notification are passed on in order, across all connections: those
    left over come with the first notification of the next connection. *)
Theorem C76_notifications : forall tr s, lrun l_init tr s ->
  List.concat (callbacks_of (base_labels (llabels tr))) ++ notif (base s) = notified_of (base_labels (llabels tr)).
Proof. exact notifications_kept. Qed.
Print Assumptions C76_notifications.
Example C76_notifications_example : life_shown sch_reconnect =
  Some [LBase (LLine (lit "RING") true); LBase (LNotify (lit "RING")); LClosing; LEnd; LClosed; LConnect;
        LBase (LLine (lit "+CREG: 1") true); LBase (LNotify (lit "+CREG: 1")); LBase (LCallback [lit "RING"; lit "+CREG: 1"])].
Proof. reflexivity. Qed.
(** After a write whose serial.write failed at once, while no line was being handled, no notification is passed on until the
    next write or a line that would end a response: also not after connect(). *)
Theorem C76_failed_write : forall tr i a1 a2 s tr2 s', lrun l_init (tr ++ [(a1, LBase (LStart i)); (a2, LFail i true)]) s -> loop s <> PIter ->
  lrun s tr2 s' -> (forall l, In l (llabels tr2) -> no_end l) ->
  Forall (fun l => (forall x, l <> LBase (LNotify x)) /\ forall x, l <> LBase (LCallback x)) (llabels tr2).
Proof. exact failed_write. Qed.
Print Assumptions C76_failed_write.
Example C76_failed_write_example :
  life_shown (repeat (DWrite 0 (tosend (lit "AT")) false) 4 ++ repeat (DWrite 0 (tosend (lit "AT")) true) 2 ++ lline (lit "RING") false ++ repeat rt 2) =
    Some [LBase (LStart 0); LFail 0 true; LBase (LLine (lit "RING") true); LBase (LAppend (lit "RING") true)] /\
  life_shown sch_failed =
    Some [LClosing; LEnd; LClosed; LBase (LStart 0); LFail 0 true; LConnect; LBase (LLine (lit "RING") true); LBase (LAppend (lit "RING") true)].
Proof. vm_compute. auto. Qed.
