(** Theorems: waiting for a delivery report. *)
From Verif Require Import Base PduModel ModemCore ModemSpec SmsModel CallModel NotifyModel SendSpec TrackSpec WaitSpec WaitProofs.

(** C74: a sendSms that waits returns when any status report has been handled during
    the wait, and otherwise raises TimeoutException; what came before does not count. *)
Theorem C74_wait : forall d t fl m sc obj w1 reps m2 sc' x w3, sendSms d t fl true (start m sc) = Done (Ok obj) w1 -> meanwhile (dev w1) reps m2 -> sendSms_wait (start m2 sc') = Done x w3 ->
  x = (match reps with [] => Err (TimeoutException None) | _ => Ok tt end) /\ reportEvent (dev w3) = None /\ trace w3 = [].
Proof. exact wait_ends. Qed.
Print Assumptions C74_wait.
(** a report goes to the callback exactly when no sendSms waits *)
Theorem C74_callback : forall line mem idx m sc w, indication (lit "+CDSI:") mem idx line -> handleSmsStatusReport line (start m sc) = Done (Ok tt) w ->
  exists st r nb t1 t2 code w1, readStoredSms idx (Some mem) (start m sc) = Done (Ok (Report st r nb t1 t2 code)) w1 /\
    match reportEvent m with
    | None => told_reports (trace w) = [Report st r nb t1 t2 code] /\ reportEvent (dev w) = None
    | Some _ => told_reports (trace w) = [] /\ reportEvent (dev w) = Some true
    end.
Proof. exact report_told. Qed.
Print Assumptions C74_callback.
(** the message has the reference 5; the report is about the message with reference 183 *)
Example C74_example : exists w1 m2 w3,
  sendSms (lit "0829200000") (lit "Test") false true (start modem_init [Lines [lit "> "]; Lines [lit "+CMGS: 5"; lit "OK"]]) = Done (Ok 0%nat) w1 /\
  meanwhile (dev w1) [(183, 0)] m2 /\ sendSms_wait (start m2 []) = Done (Ok tt) w3 /\
  option_map s_reference (nth_error (sentObjs (dev w3)) 0) = Some 5 /\ option_map sent_status (nth_error (sentObjs (dev w3)) 0) = Some 0.
Proof.
  do 3 eexists. split; [vm_compute; reflexivity|]. split.
  - eapply (mw_report _ [] _ (lit "+CDSI: ""SM"",3") (lit "SM") (lit "3")
      [Lines [lit "OK"]; Lines [lit "+CMGR: 0,,24"; lit "07917248014000F506B70AA18092020000317071518590803170715185418000"; lit "OK"]; Lines [lit "OK"]] _ 183); [apply mw_nil| |vm_compute; reflexivity|vm_compute; reflexivity].
    exists [32], []. split; [reflexivity|]. split; [repeat constructor|]. split; [discriminate|]. split; [cbn; intuition discriminate|]. split; [split; [discriminate|repeat constructor]|left; reflexivity].
  - split; [vm_compute; reflexivity|]. split; vm_compute; reflexivity.
Qed.
