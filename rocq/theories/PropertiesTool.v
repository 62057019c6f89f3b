(** Properties C77 and C78: the programs sendsms.py and identify-modem.py. *)
From Verif Require Import Base PduModel ModemCore ModemSpec MonadProofs SmsModel SendSpec TrackSpec CoverageSpec ConnectSpec SetupSpec ToolModel ToolSpec ToolProofs.

(** C77: whatever the modem answers, sendsms.py announces a message only after the SIM
    is unlocked and a registered modem has reported a signal; the PIN is sent only
    while connecting. *)
Theorem C77_order : forall port pin deliver d text timer sc, let w := last_of (sendsms port pin deliver d text timer (start modem_init sc)) in
  exists A B C, asked (trace w) = A ++ B ++ C /\ pin_use pin A /\ no_pin (B ++ C) /\ no_message (A ++ B) /\ (B <> [] -> unlocked pin A) /\ (C <> [] -> unlocked pin A /\ covered B).
Proof. exact sendsms_order. Qed.
Print Assumptions C77_order.
(** what is said, the exit code and whether the modem is closed, when the message was
    not sent; otherwise all its parts were transmitted and the modem gave a reference *)
Theorem C77_ends : forall port pin deliver d text timer sc x w, sendsms port pin deliver d text timer (start modem_init sc) = Done x w ->
  match x with
  | Ok (Ended outs e) => ending port deliver d text (trace w) outs e
  | Ok (SentOff outs obj) => outs = hello port :: checking :: sending deliver /\ obj = 0%nat /\
      exists before evs pdus a n, trace w = before ++ evs /\ no_message (asked before) /\ encodeSmsSubmitPdu d text 0 VNone None true false false = Ok pdus /\
        transmits pdus evs (Ok a) /\ reference_in a n /\ sentObjs (dev w) = [mk_sent d text n None]
  | Err _ => False
  end.
Proof. exact sendsms_ends. Qed.
Print Assumptions C77_ends.
(** without -p, a SIM that is not ready is a missing PIN *)
Theorem C77_no_pin : forall port deliver d text timer sc ls, let w := last_of (sendsms port None deliver d text timer (start modem_init sc)) in
  In (pin_query, Some (Lines ls)) (asked (trace w)) -> good_answer ls -> ~ sim_ready (Lines ls) ->
  sendsms port None deliver d text timer (start modem_init sc) =
    Done (Ok (Ended [hello port; Complain (lit "Error: SIM card PIN required. Please specify a PIN with the -p argument.")] (Exits 1))) w.
Proof. exact sendsms_no_pin. Qed.
Print Assumptions C77_no_pin.
(** The last line.  With -d and no report in time a message that the modem has taken is
    called one that could not be sent. *)
Theorem C77_verdict : forall port pin deliver d text timer sc outs obj w s reps m2 sc', sendsms port pin deliver d text timer (start modem_init sc) = Done (Ok (SentOff outs obj)) w ->
  nth_error (sentObjs (dev w)) obj = Some s -> received (dev w) reps m2 -> exists w3,
  if deliver && match reps with [] => true | _ => false end
  then sendsms_end deliver outs obj (start m2 sc') = Done (Ok (outs ++ [Say (lit "Failed to send message: the send operation timed out"); CloseModem], Exits 1)) w3
  else exists v said, last_report (s_reference s) reps v /\ verdict_text v said /\ sendsms_end deliver outs obj (start m2 sc') = Done (Ok (outs ++ [CloseModem; Say said], Exits 0)) w3.
Proof. exact sendsms_verdict. Qed.
Print Assumptions C77_verdict.

Definition fine : reply := Lines [lit "OK"].
Definition tells (l : str) : reply := Lines [l; lit "OK"].
Definition no : reply := Lines [lit "ERROR"].
(** a modem that is ready; searching at first, then registered, then with a signal *)
Definition ready : list reply :=
  [fine; fine; tells (lit "+CFUN: 1"); fine; tells (lit "+CPIN: READY"); no; no; tells (lit "ACME"); no; fine; fine; tells (lit "+CSCA: ""+2782"",145"); fine;
   tells (lit "+CSCA: ""+2782"",145"); tells (lit "+CPMS: (""SM"",""ME""),(""SM"")"); fine; fine; fine; fine; fine].
Definition on_air : list reply := [tells (lit "+CREG: 0,2"); tells (lit "+CREG: 0,1"); tells (lit "+CSQ: 18,99")].
Definition taken : list reply := [Lines [lit "> "]; tells (lit "+CMGS: 183")].
Definition run_sendsms (deliver : bool) (sc : list reply) : out progress := sendsms (lit "/dev/ttyUSB0") None deliver (lit "0829200000") (lit "Test") [] (start modem_init sc).
Definition last_texts {A} (n : nat) (o : out A) : list str := let l := map fst (asked (trace (match o with Done _ w | Stuck w => w end))) in skipn (length l - n) l.
Example C77_example_sent : exists w, run_sendsms true (ready ++ on_air ++ taken) = Done (Ok (SentOff (hello (lit "/dev/ttyUSB0") :: checking :: sending true) 0)) w /\
  last_texts 4 (run_sendsms true (ready ++ on_air ++ taken)) = [lit "AT+CREG?" ++ [13]; lit "AT+CSQ" ++ [13]; lit "AT+CMGS=16" ++ [13]; lit "0021000AA180920200000000" ++ lit "04D4F29C0E" ++ [26]] /\
  option_map s_reference (nth_error (sentObjs (dev w)) 0) = Some 183.
Proof. eexists. split; [vm_compute; reflexivity|]. split; vm_compute; reflexivity. Qed.
(** not registered, and not searching: nothing catches that *)
Example C77_example_denied : exists w, run_sendsms true (ready ++ [tells (lit "+CREG: 0,3")]) = Done (Ok (Ended [hello (lit "/dev/ttyUSB0"); checking] (Uncaught InvalidStateException))) w.
Proof. eexists. vm_compute. reflexivity. Qed.
(** the report for the message says that it was delivered *)
Example C77_example_delivered : exists w m2, run_sendsms true (ready ++ on_air ++ taken) = Done (Ok (SentOff (hello (lit "/dev/ttyUSB0") :: checking :: sending true) 0)) w /\
  received (dev w) [(183, 0)] m2 /\ match sendsms_end true [] 0 (start m2 []) with Done x _ => x = Ok ([CloseModem; Say (lit "Message sent and delivered OK.")], Exits 0) | Stuck _ => False end.
Proof.
  do 2 eexists. split; [vm_compute; reflexivity|]. split.
  - eapply (rc_report _ [] _ (lit "+CDSI: ""SM"",3") (lit "SM") (lit "3")
      [fine; Lines [lit "+CMGR: 0,,24"; lit "07917248014000F506B70AA18092020000317071518590803170715185418000"; lit "OK"]; fine] _ 183); [apply rc_nil| |vm_compute; reflexivity|vm_compute; reflexivity].
    exists [32], []. split; [reflexivity|]. split; [repeat constructor|]. split; [discriminate|]. split; [cbn; intuition discriminate|]. split; [split; [discriminate|repeat constructor]|left; reflexivity].
  - vm_compute. reflexivity.
Qed.

(** C78: identify-modem.py prints what the modem said.  The IMEI, the IMSI and, when
    the modem knows it, the revision are asked for twice; the second answer counts. *)
Theorem C78_identify : forall w i w', identify w = Done (Ok i) w' -> exists l, asked (trace w') = asked (trace w) ++ l /\ identified l i.
Proof. exact identify_spec. Qed.
Print Assumptions C78_identify.
(** with -d it sends these commands, once each and in this order, and prints the answers *)
Theorem C78_dump : forall w x w', debug_dump debug_commands w = Done (Ok x) w' ->
  asked (trace w') = asked (trace w) ++ map (fun p => ask (fst p) (Lines (snd p))) x /\
  map fst x = map lit ["ATI"; "AT+CGMI"; "AT+CGMM"; "AT+CGMR"; "AT+CFUN=?"; "AT+WIND=?"; "AT+WIND?"; "AT+CPMS=?"; "AT+CNMI=?"; "AT+CVHU=?"; "AT+CSMP?"; "AT+GCAP"; "AT+CPIN?"; "AT+CLAC"]%string.
Proof. exact dump_commands. Qed.
Print Assumptions C78_dump.
Example C78_example : match identify (start modem_init [tells (lit "ACME"); tells (lit "M1"); tells (lit "1.0"); no; tells (lit "01"); tells (lit "01"); tells (lit "655"); tells (lit "655");
    tells (lit "+COPS: 0,0,""voda"",2"); tells (lit "+CSQ: 18,99")]) with
  | Done x w => x = Ok (mk_identity (lit "ACME") (lit "M1") None (Some (lit "01")) (Some (lit "655")) (Some (lit "voda")) 18) /\ script w = []
  | Stuck _ => False end.
Proof. vm_compute. auto. Qed.
