(** Specification vocabulary for waiting for a delivery report. *)
From Verif Require Import Base PduModel ModemCore ModemSpec SmsModel CallModel NotifyModel SendSpec TrackSpec.

(** the reports that are handed to the application's callback *)
Definition told_reports (tr : list event) : list stored_sms :=
  flat_map (fun e => match e with EReport r => [r] | _ => [] end) tr.

(** What other threads do while sendSms waits, one after the other; the reference and
    code of each report whose handler comes to its end.  Handlers of other
    notifications and calls of sendSms that do not wait may succeed or fail. *)
Inductive meanwhile (m : modem) : list (Z * Z) -> modem -> Prop :=
| mw_nil : meanwhile m [] m
| mw_report reps m1 line mem idx sc st r nb t1 t2 code w1 w : meanwhile m reps m1 -> indication (lit "+CDSI:") mem idx line ->
    readStoredSms idx (Some mem) (start m1 sc) = Done (Ok (Report st r nb t1 t2 code)) w1 -> handleSmsStatusReport line (start m1 sc) = Done (Ok tt) w ->
    meanwhile m (reps ++ [(r, code)]) (dev w)
| mw_report_failed reps m1 line sc : meanwhile m reps m1 ->
    (forall w, handleSmsStatusReport line (start m1 sc) <> Done (Ok tt) w) \/ (forall mem idx, ~ indication (lit "+CDSI:") mem idx line) ->
    meanwhile m reps (state_after (handleSmsStatusReport line (start m1 sc)))
| mw_notified reps m1 lines sc : meanwhile m reps m1 -> Forall (fun l => ~ starts_with (lit "+CDSI") l) lines ->
    meanwhile m reps (state_after (handleNotification lines (start m1 sc)))
| mw_send reps m1 d t fl sc : meanwhile m reps m1 -> meanwhile m reps (state_after (sendSms d t fl false (start m1 sc))).
