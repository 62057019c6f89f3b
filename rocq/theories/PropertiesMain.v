(** Property C122: the line that sendsms.py reads. *)
From Verif Require Import Base ModemCore ModemSpec MonadProofs SmsModel SendSpec TrackSpec CoverageSpec ConnectSpec SetupSpec ToolModel ToolSpec MainModel MainSpec MainProofs.

(** C122: without -i nothing is sent. *)
Theorem C122_no_port : forall python3 pin deliver d k timer w, main python3 None pin deliver d k timer w =
  Done (Ok (Over [Complain (lit "Error: No port specified. Please specify the port to which the GSM modem is connected using the -i argument.")] (Ends (Exits 1)))) w.
Proof. exact main_no_port. Qed.
Print Assumptions C122_no_port.
(** With Python 2 and a line the program is that of C77. *)
Theorem C122_typed : forall port pin deliver d text timer w, main false (Some port) pin deliver d (Types text) timer w = whole (sendsms port pin deliver d text timer w).
Proof. exact main_typed. Qed.
Print Assumptions C122_typed.
(** With Python 3, or at the end of the input, no message is ever announced, whatever
    the modem answers, *)
Theorem C122_no_message : forall python3 port pin deliver d k timer sc, nothing_read python3 k ->
  no_message (asked (trace (last_of (main python3 port pin deliver d k timer (start modem_init sc))))).
Proof. exact main_no_message. Qed.
Print Assumptions C122_no_message.
(** and the program ends in one of these ways, the modem being closed in one of them only; *)
Theorem C122_unread : forall python3 port pin deliver d k timer sc x w, nothing_read python3 k -> main python3 (Some port) pin deliver d k timer (start modem_init sc) = Done x w ->
  exists outs e, x = Ok (Over outs e) /\ not_read python3 port pin (trace w) outs e.
Proof. exact main_unread. Qed.
Print Assumptions C122_unread.
(** if it fails before, it ends as it does with Python 2 and any line; *)
Theorem C122_before : forall python3 port pin deliver d k timer w outs e w', nothing_read python3 k -> main python3 (Some port) pin deliver d k timer w = Done (Ok (Over outs (Ends e))) w' ->
  forall text, sendsms port pin deliver d text timer w = Done (Ok (Ended outs e)) w'.
Proof. exact main_before. Qed.
Print Assumptions C122_before.
(** where with Python 2 and a line the message is sent, it ends with the exception of
    reading the line, before the message is announced and with the modem open. *)
Theorem C122_instead : forall python3 port pin deliver d text k timer sc outs obj w, nothing_read python3 k ->
  sendsms port pin deliver d text timer (start modem_init sc) = Done (Ok (SentOff outs obj)) w ->
  exists w' evs, main python3 (Some port) pin deliver d k timer (start modem_init sc) = Done (Ok (Over [hello port; checking; asking] (if python3 then NameError else EofError))) w' /\
    trace w = trace w' ++ evs /\ no_message (asked (trace w')) /\ ~ no_message (asked evs).
Proof. exact main_instead. Qed.
Print Assumptions C122_instead.

Definition fine : reply := Lines [lit "OK"].
Definition tells (l : str) : reply := Lines [l; lit "OK"].
Definition no : reply := Lines [lit "ERROR"].
(** a modem that is ready, with a signal, and takes the message *)
Definition answers : list reply :=
  [fine; fine; tells (lit "+CFUN: 1"); fine; tells (lit "+CPIN: READY"); no; no; tells (lit "ACME"); no; fine; fine; tells (lit "+CSCA: ""+2782"",145"); fine;
   tells (lit "+CSCA: ""+2782"",145"); tells (lit "+CPMS: (""SM"",""ME""),(""SM"")"); fine; fine; fine; fine; fine;
   tells (lit "+CREG: 0,1"); tells (lit "+CSQ: 18,99"); Lines [lit "> "]; tells (lit "+CMGS: 183")].
Definition port : str := lit "/dev/ttyUSB0".
Definition ending_of {A} (o : out A) : option (res A * list reply) := match o with Done x w => Some (x, script w) | Stuck _ => None end.
(** the same modem and line with both Pythons *)
Example C122_example :
  (exists w, sendsms port None false (lit "0829200000") (lit "Test") [] (start modem_init answers) = Done (Ok (SentOff (hello port :: checking :: sending false) 0)) w) /\
  nothing_read true (Types (lit "Test")) /\
  ending_of (main false (Some port) None false (lit "0829200000") (Types (lit "Test")) [] (start modem_init answers)) = Some (Ok (Sending (hello port :: checking :: sending false) 0), []) /\
  ending_of (main true (Some port) None false (lit "0829200000") (Types (lit "Test")) [] (start modem_init answers)) =
    Some (Ok (Over [hello port; checking; asking] NameError), [Lines [lit "> "]; tells (lit "+CMGS: 183")]) /\
  ending_of (main false (Some port) None false (lit "0829200000") AtEnd [] (start modem_init answers)) =
    Some (Ok (Over [hello port; checking; asking] EofError), [Lines [lit "> "]; tells (lit "+CMGS: 183")]).
Proof. split; [eexists; vm_compute; reflexivity|]. split; [left; reflexivity|]. repeat split; vm_compute; reflexivity. Qed.
(** not registered *)
Example C122_before_example : exists w, nothing_read true (Types (lit "Test")) /\
  main true (Some port) None false (lit "0829200000") (Types (lit "Test")) [] (start modem_init (firstn 20 answers ++ [tells (lit "+CREG: 0,3")])) = Done (Ok (Over [hello port; checking] (Ends (Uncaught InvalidStateException)))) w.
Proof. eexists. split; [left; reflexivity|]. vm_compute. reflexivity. Qed.
