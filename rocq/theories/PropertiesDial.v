(** Dialling and incoming calls. *)
From Verif Require Import Base ModemCore ModemSpec SendSpec TrackSpec CoverageSpec MonadProofs CallModel NotifyModel PollSpec BookSpec DialSpec DialProofs RingProofs.

(** C64: dial() writes the command, and either enters the call at once or waits to be
    told of it *)
Theorem C64_dial : forall number cb m sc, match dial_start number cb (start m sc) with
  | Done x w => dials (waitAtd m) (waitInit m) number cb (book_of m) (trace w) x (book_of (dev w))
  | Stuck _ => waitAtd m = true
  end.
Proof. exact dial_does. Qed.
Print Assumptions C64_dial.
(** The end of the wait: whatever was done meanwhile, the call gets the id and type of the
    last announcement; without one, dial() times out and there is no new call. *)
Theorem C64_wait : forall number cb m os m' sc o, sound_book (book_of m) -> dialEvent m = Some false -> meanwhile m os m' -> last_announced (callUpdates m) os o ->
  exists x w, dial_finish number cb (start m' sc) = Done x w /\ dial_ends number cb (book_of m') o x (book_of (dev w)) /\ script w = sc /\ trace w = [].
Proof. exact dial_finishes. Qed.
Print Assumptions C64_wait.
(** the last announcement is determined by what was done *)
Theorem C64_announced : forall t os, exists o, last_announced t os o /\ forall o', last_announced t os o' -> o' = o.
Proof. exact last_determined. Qed.
Print Assumptions C64_announced.
Definition huawei : modem := set_waitAtd true (set_waitInit true (set_callUpdates THuawei modem_init)).
Definition huawei_waiting : modem := state_after (dial_start (lit "0821234567") true (start huawei [Lines [lit "OK"]])).
Definition huawei_told : modem := state_after (perform (Notification [lit "^ORIG:2,1"]) (start (state_after (perform (Notification [lit "RING"]) (start huawei_waiting []))) [])).
Example C64_example : dialEvent huawei_waiting = Some false /\ sound_book (book_of huawei_waiting) /\
  meanwhile huawei_waiting [Notification [lit "RING"]; Notification [lit "^ORIG:2,1"]] huawei_told /\
  last_announced (callUpdates huawei_waiting) [Notification [lit "RING"]; Notification [lit "^ORIG:2,1"]] (Some (2, 1)) /\
  exists w, dial_finish (lit "0821234567") true (start huawei_told []) = Done (Ok 1%nat) w /\
    nth_error (callObjs (dev w)) 1 = Some (mk_call 2 false (Some 1) (Some (lit "0821234567")) true false true false 0) /\ activeCalls (dev w) = [(1, 0%nat); (2, 1%nat)].
Proof.
  split; [reflexivity|]. split; [split; [constructor|intros id n []]|]. split; [|split; [|eexists; vm_compute; auto]].
  - apply (mw_op huawei_waiting [Notification [lit "RING"]]); [|exact Logic.I|exact Logic.I]. apply (mw_op huawei_waiting []); [constructor|exact Logic.I|exact Logic.I].
  - apply (la_some _ [Notification [lit "RING"]] (Notification [lit "^ORIG:2,1"]) []); [|constructor]. apply (an_line _ [] (lit "^ORIG:2,1") []); [constructor|].
    apply (cn_orig 50 49 []); [reflexivity|reflexivity|left; reflexivity].
Qed.
Example C64_example_timeout : exists w, dial_finish (lit "1") false (start huawei_waiting []) = Done (Err (TimeoutException None)) w /\ callObjs (dev w) = [] /\ dialEvent (dev w) = None.
Proof. eexists. vm_compute. auto. Qed.
Example C64_example_refused : exists w, dial_start (lit "1") false (start huawei [Lines [lit "+CME ERROR: 30"]]) = Done (Err (CmeError (lit "ATD1;") 30)) w /\ dialEvent (dev w) = None /\ callObjs (dev w) = [].
Proof. eexists. vm_compute. auto. Qed.

(** C65: a notification with RING is about an incoming call: a known one, which has rung
    once more, or a new one; the callback gets it.  [incoming] says which. *)
Theorem C65_ring : forall before line after m sc, sound_book (book_of m) -> Forall (unrelated (callUpdates m)) before -> ModemSpec.substring (lit "RING") line ->
  let lines := before ++ line :: after in
  match handleNotification lines (start m sc) with
  | Done x w => incoming (crc m) (clip m) (book_of m) lines (trace w) x (crc (dev w)) (book_of (dev w))
  | Stuck _ => crc m = true /\ exists ring rest, lines = ring :: rest /\ ~ In 32 ring
  end.
Proof. exact ring_noted. Qed.
Print Assumptions C65_ring.
(** the caller's number is determined by the lines *)
Theorem C65_caller : forall cl lines a b, caller cl lines a -> caller cl lines b -> a = b.
Proof. exact caller_fun. Qed.
Print Assumptions C65_caller.
Definition ringing : modem := set_crc true (set_clip true modem_init).
Example C65_example : let ring := [lit "+CRING: VOICE"; lit "+CLIP: ""+27821234567"",145,,,,0"] in
  exists w, handleNotification ring (start (state_after (handleNotification ring (start ringing []))) []) = Done (Ok tt) w /\
    trace w = [ERing 0%nat] /\ callObjs (dev w) = [mk_call 1 true (Some 0) (Some (lit "+27821234567")) false false true true 2] /\ activeCalls (dev w) = [(1, 0%nat)] /\
    caller true ring (Some (lit "+27821234567")).
Proof.
  eexists. split; [vm_compute; reflexivity|]. split; [reflexivity|]. split; [reflexivity|]. split; [reflexivity|]. apply ca_given; [reflexivity|].
  exists [32], [43], (lit "27821234567"), (lit "145"), (lit ",,,,0"), []. repeat split; try discriminate; auto; try (repeat constructor; fail). vm_compute. intuition discriminate.
Qed.
(** extended codes were switched off: they are asked for, and refused *)
Example C65_example_crc : exists w, handleNotification [lit "RING"] (start ringing [Lines [lit "ERROR"]]) = Done (Ok tt) w /\ crc (dev w) = false /\
  trace w = [EWrite (lit "AT+CRC=1" ++ [13]) (Some (Lines [lit "ERROR"])); ERing 0%nat] /\ option_map c_type (nth_error (callObjs (dev w)) 0) = Some None.
Proof. eexists. vm_compute. auto. Qed.
(** a call that is not a voice call *)
Example C65_example_fax : handleNotification [lit "+CRING: FAX"] (start ringing []) = Done (Err KeyError) (start ringing []).
Proof. reflexivity. Qed.
