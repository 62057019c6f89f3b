(** Property C123: identify-modem.py as a whole. *)
From Verif Require Import Base ModemCore ModemSpec MonadProofs SmsModel SendSpec TrackSpec CoverageSpec ConnectSpec SetupSpec ErrorModel ErrorSpec ToolModel ToolSpec IdentModel IdentSpec IdentProofs.

(** C123: the program ends in one of these ways; it writes nothing else, does not close the
    modem, and writes its arguments, the PIN among them, first *)
Theorem C123_ends : forall port pin debug sc x w, identify_main port pin debug (start modem_init sc) = Done x w ->
  exists outs e, x = Ok (outs, e) /\
    match e with
    | Exits 0 => ends_well port pin debug (trace w) outs
    | Exits c => c = 1 /\ exists t, outs = greeting port pin debug ++ [Wrong t] /\
        (t = lit "Error: SIM card PIN required. Please specify a PIN with the -p argument." \/ t = lit "Error: Incorrect SIM card PIN entered.")
    | Uncaught e => ends_badly port pin debug (trace w) outs e
    end.
Proof. exact ident_ends. Qed.
Print Assumptions C123_ends.
(** what it asks the modem, also in executions that have not ended: as connect does, and
    then, of a SIM that is unlocked, the commands of one of the two lists only *)
Theorem C123_order : forall port pin (debug : bool) sc, let w := last_of (identify_main port pin debug (start modem_init sc)) in
  exists A B, asked (trace w) = A ++ B /\ pin_use pin A /\ (B <> [] -> unlocked pin A) /\
    Forall (fun q => exists c, In c (if debug then dump_commands_list else info_commands) /\ fst q = c ++ [13]) B.
Proof. exact ident_order. Qed.
Print Assumptions C123_order.
(** how connect fails decides how the program does *)
Theorem C123_refused : forall port pin (debug : bool) w x w1, connect pin w = Done (Err x) w1 ->
  exists outs e, identify_main port pin debug w = Done (Ok (outs, e)) w1 /\
    match x with
    | PinRequiredError _ _ => outs = greeting port pin debug ++ [Wrong (lit "Error: SIM card PIN required. Please specify a PIN with the -p argument.")] /\ e = Exits 1
    | IncorrectPinError _ _ => outs = greeting port pin debug ++ [Wrong (lit "Error: Incorrect SIM card PIN entered.")] /\ e = Exits 1
    | _ => outs = greeting port pin debug /\ e = Uncaught x
    end.
Proof. exact ident_refused. Qed.
Print Assumptions C123_refused.
(** once connected, the program succeeds if the queries of C78 do, fails with the
    exception of the first that fails, and waits as long as one of them does *)
Theorem C123_connected : forall port pin (debug : bool) w w1, connect pin w = Done (Ok tt) w1 ->
  if debug then
    match debug_dump debug_commands w1 with
    | Done (Ok x) w' => exists os, Forall2 answered os x /\ identify_main port pin debug w = Done (Ok (greeting port pin debug ++ title debug :: os ++ [Line []], Exits 0)) w'
    | Done (Err e) w' => exists os x, Forall2 answered os x /\ (length x < 14)%nat /\ map fst x = firstn (length x) dump_commands_list /\
        identify_main port pin debug w = Done (Ok (greeting port pin debug ++ title debug :: os, Uncaught e)) w'
    | Stuck w' => identify_main port pin debug w = Stuck w'
    end
  else
    match identify w1 with
    | Done (Ok i) w' => exists t, shown_as (AInt (i_signal i)) t /\ identify_main port pin debug w = Done (Ok (greeting port pin debug ++ title debug :: labelled (values i t) ++ [Line []], Exits 0)) w'
    | Done (Err e) w' => exists vs, (length vs < 7)%nat /\ identify_main port pin debug w = Done (Ok (greeting port pin debug ++ title debug :: labelled vs, Uncaught e)) w'
    | Stuck w' => identify_main port pin debug w = Stuck w'
    end.
Proof. exact ident_connected. Qed.
Print Assumptions C123_connected.
(** the values printed are those that the modem gave, also where a later query fails, *)
Theorem C123_given : forall port pin w w1 outs e w', connect pin w = Done (Ok tt) w1 -> identify_main port pin false w = Done (Ok (outs, e)) w' ->
  exists l vs tail, asked (trace w') = asked (trace w1) ++ l /\ given labels l vs /\ outs = greeting port pin false ++ title false :: labelled vs ++ tail /\
    match e with Exits c => c = 0 /\ length vs = 7%nat /\ tail = [Line []] | Uncaught _ => (length vs < 7)%nat /\ tail = [] end.
Proof. exact ident_given. Qed.
Print Assumptions C123_given.
(** and so are the answers with -d *)
Theorem C123_given_debug : forall port pin w w1 outs e w', connect pin w = Done (Ok tt) w1 -> identify_main port pin true w = Done (Ok (outs, e)) w' ->
  exists x os rest tail, asked (trace w') = asked (trace w1) ++ map (fun p => ask (fst p) (Lines (snd p))) x ++ rest /\ Forall2 answered os x /\
    outs = greeting port pin true ++ title true :: os ++ tail /\ map fst x = firstn (length x) dump_commands_list /\
    match e with Exits c => c = 0 /\ length x = 14%nat /\ rest = [] /\ tail = [Line []] | Uncaught _ => (length x < 14)%nat /\ tail = [] end.
Proof. exact ident_given_debug. Qed.
Print Assumptions C123_given_debug.

Definition fine : reply := Lines [lit "OK"].
Definition tells (l : str) : reply := Lines [l; lit "OK"].
Definition no : reply := Lines [lit "ERROR"].
(** connect, with a SIM that wants the PIN *)
Definition up : list reply :=
  [fine; fine; tells (lit "+CFUN: 1"); fine; tells (lit "+CPIN: SIM PIN"); fine; no; no; tells (lit "ACME"); no; fine; fine; tells (lit "+CSCA: ""+2782"",145"); fine;
   tells (lit "+CSCA: ""+2782"",145"); tells (lit "+CPMS: (""SM"",""ME""),(""SM"")"); fine; fine; fine; fine; fine].
Definition port : str := lit "/dev/ttyUSB0".
Definition pin : option str := Some (lit "1234").
Definition ending_of {A} (o : out A) : option (res A * list reply) := match o with Done x w => Some (x, script w) | Stuck _ => None end.
Definition told : list reply := [tells (lit "ACME"); tells (lit "M1"); no; tells (lit "01"); tells (lit "01"); tells (lit "655"); tells (lit "655")].
Example C123_example :
  (exists w, connect pin (start modem_init up) = Done (Ok tt) w) /\
  ending_of (identify_main port pin false (start modem_init (up ++ told ++ [fine; tells (lit "+CSQ: 18,99")]))) =
    Some (Ok ([Arguments port pin false; Line (lit "Connecting to GSM modem on /dev/ttyUSB0..."); Line (10 :: lit "== MODEM INFORMATION ==" ++ [10]); Value (lit "Manufacturer:") (lit "ACME");
      Value (lit "Model:") (lit "M1"); Value (lit "Revision:") (lit "N/A"); Value (10 :: lit "IMEI:") (lit "01"); Value (lit "IMSI:") (lit "655"); Value (10 :: lit "Network:") (lit "None");
      Value (lit "Signal strength:") (lit "18"); Line []], Exits 0), []) /\
  ending_of (identify_main port pin false (start modem_init (up ++ firstn 5 told ++ [no]))) =
    Some (Ok (greeting port pin false ++ title false :: labelled [lit "ACME"; lit "M1"; lit "N/A"; lit "01"], Uncaught (CommandError (Some (lit "AT+CIMI")))), []).
Proof. split; [eexists; vm_compute; reflexivity|]. split; vm_compute; reflexivity. Qed.
(** with -d, where errors are printed as answers *)
Example C123_debug_example :
  ending_of (identify_main port pin true (start modem_init (up ++ repeat no 13 ++ [tells (lit "+CLAC")]))) =
    Some (Ok (greeting port pin true ++ title true :: map (fun l => Answer l [lit "ERROR"])
      (map lit ["ATI"; "AT+CGMI:"; "AT+CGMM:"; "AT+CGMR:"; "AT+CFUN=?:"; "AT+WIND=?:"; "AT+WIND?:"; "AT+CPMS=?:"; "AT+CNMI=?:"; "AT+CVHU=?:"; "AT+CSMP?:"; "AT+GCAP:"; "AT+CPIN?"]%string) ++
      [Answer (lit "AT+CLAC:") [lit "+CLAC"; lit "OK"]; Line []], Exits 0), []).
Proof. vm_compute. reflexivity. Qed.
(** the modem says nothing to the third command *)
Example C123_given_example : exists w, identify_main port pin true (start modem_init (up ++ [no; fine; NoReply []])) =
  Done (Ok (greeting port pin true ++ title true :: [Answer (lit "ATI") [lit "ERROR"]; Answer (lit "AT+CGMI:") [lit "OK"]], Uncaught (TimeoutException None))) w.
Proof. eexists. vm_compute. reflexivity. Qed.
(** no PIN given *)
Example C123_refused_example : exists w c n, connect None (start modem_init (firstn 5 up)) = Done (Err (PinRequiredError c n)) w.
Proof. do 3 eexists. vm_compute. reflexivity. Qed.
