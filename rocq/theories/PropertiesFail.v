(** Connecting that fails. *)
From Verif Require Import Base ModemCore ModemSpec SendSpec TrackSpec CoverageSpec SmsModel ConnectModel ConnectSpec SetupSpec UtilSpec FailSpec FailProofs.

(** C89: the answer to the last command tells why *)
Theorem C89_why : forall pin m sc e w, connect pin (start m sc) = Done (Err e) w ->
  exists before command r, asked (trace w) = before ++ [ask command r] /\ failure pin before command r e.
Proof. exact connect_fails. Qed.
Print Assumptions C89_why.

Definition ok : reply := Lines [lit "OK"].
Definition error : reply := Lines [lit "ERROR"].
Definition raised (o : out unit) : option exn := match o with Done (Err e) _ => Some e | _ => None end.
(** no "+CFUN:" line; a SIM that needs a PIN, without and with one that is wrong; "OK"
    alone to the question for the memories; a refused reset *)
Example C89_example :
  raised (connect None (start modem_init [ok; ok; ok])) = Some TypeError /\
  raised (connect None (start modem_init [ok; ok; Lines [lit "+CFUN: on"; lit "OK"]])) = Some ValueError /\
  raised (connect None (start modem_init [ok; ok; error; ok; Lines [lit "+CPIN: SIM PIN"; lit "OK"]])) = Some (PinRequiredError (lit "AT+CPIN") 11) /\
  raised (connect (Some (lit "1")) (start modem_init [ok; ok; error; ok; Lines [lit "+CPIN: SIM PIN"; lit "OK"]; Lines [lit "+CME ERROR: 16"]])) =
    Some (IncorrectPinError (lit "AT+CPIN=""1""") 16) /\
  raised (connect None (start modem_init [ok; ok; error; ok; Lines [lit "+CPIN: READY"; lit "OK"]; error; error; Lines [lit "ACME"; lit "OK"]; error; error; ok;
    Lines [lit "+CMS ERROR: 330"]; error; ok])) = Some AttributeError /\
  raised (connect None (start modem_init [error; error; Lines [lit "+CPIN: READY"; lit "OK"]; error])) = Some (CommandError (Some (lit "ATZ"))).
Proof. vm_compute. repeat split. Qed.
Example C89_example_why : failure None [] (lit "AT+CFUN?") ok TypeError /\ ~ In (lit "ATE0") dispensable /\ In (lit "AT+CRC=1") dispensable.
Proof.
  split; [|split; [apply mem_not; reflexivity|vm_compute; tauto]].
  apply (fl_no_line None [] (lit "AT+CFUN?") (lit "+CFUN:")); [left; reflexivity| |].
  - exists [], (lit "OK"). split; [reflexivity|]. split; [|discriminate]. intros (a & b & E). destruct a as [|x [|y [|z a]]]; discriminate E.
  - intros l [<-|[]] (r & E). discriminate E.
Qed.
