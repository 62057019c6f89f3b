(** Property C101: what the modem makes of the arguments of methods. *)
From Verif Require Import Base ModemCore ModemSpec SmsModel UssdModel CallModel NotifyModel ConnectModel InjectSpec InjectProofs.

(** C101: whatever the replies, arguments without carriage returns and quotes (unquoted ones also
    without semicolons) remain arguments of the one command that the method gives, again at each retry. *)
Theorem C101_ussd : forall s, quotable s -> forall m sc,
  Forall (fun t => orders t = [lit "+CUSD=1," ++ in_quotes s ++ lit ",15"]) (sent (sendUssd_start s) m sc).
Proof. exact ussd_says. Qed.
Print Assumptions C101_ussd.
Theorem C101_dial : forall n callback, bare n -> forall m sc,
  Forall (fun t => orders t = [lit "D" ++ n]) (sent (dial_start n callback) m sc).
Proof. exact dial_says. Qed.
Print Assumptions C101_dial.
Theorem C101_centre : forall n, quotable n -> forall m sc,
  Forall (fun t => orders t = [lit "+CSCA=" ++ in_quotes n]) (sent (set_smsc n) m sc).
Proof. exact centre_says. Qed.
Print Assumptions C101_centre.
Theorem C101_stored : forall index memory m sc, bare index -> opt_all quotable memory ->
  Forall (one_of (memory_order memory ++ [lit "+CMGR=" ++ index])) (sent (readStoredSms index memory) m sc) /\
  Forall (one_of (memory_order memory ++ [lit "+CMGD=" ++ index ++ lit ",0"])) (sent (deleteStoredSms index memory) m sc).
Proof. exact (fun index memory m sc B Q => conj (read_says index memory B Q m sc) (delete_says index memory B Q m sc)). Qed.
Print Assumptions C101_stored.
Theorem C101_listed : forall status flag memory delete m sc, opt_all quotable memory ->
  Forall (one_of (memory_order memory ++ [lit "+CMGD=1," ++ str_of_Z flag])) (sent (deleteMultipleStoredSms flag memory) m sc) /\
  Forall (fun t => exists c, orders t = [c] /\ (In c (memory_order memory) \/ verb c = lit "+CMGL" \/ verb c = lit "+CMGD"))
    (sent (listStoredSms status memory delete) m sc).
Proof. exact (fun status flag memory delete m sc Q => conj (multiple_says flag memory Q m sc) (list_says status memory delete Q m sc)). Qed.
Print Assumptions C101_listed.
(** one command per tone *)
Theorem C101_tones : forall n t0 ts m sc, tone t0 -> Forall tone ts ->
  Forall (fun t => exists base, (base = lit "+VTS=" \/ base = lit "^DTMF=" ++ str_of_Z (c_id (the_call m n)) ++ lit ",") /\
    orders t = map (fun c => base ++ [c]) (t0 :: ts)) (sent (sendDtmfTone n (t0 :: ts)) m sc).
Proof. exact tones_final. Qed.
Print Assumptions C101_tones.
(** connect(): the PIN and the number of the service centre, given or reported by the modem *)
Theorem C101_connect : forall pin, opt_all quotable pin -> forall m sc, opt_all quotable (smscNumber m) -> Forall honest sc ->
  Forall (fun t => exists c, orders t = [c] /\ (In c (unlock_orders pin) \/ In (verb c) setup_verbs)) (sent (connect pin) m sc).
Proof. exact connect_says. Qed.
Print Assumptions C101_connect.
(** lines that a modem sends by itself cannot make the program give other commands than these *)
Theorem C101_notified : forall lines, Forall (fun l => ~ In 13 l) lines -> forall m sc,
  Forall (fun t => exists c, orders t = [c] /\ In (verb c) handler_verbs) (sent (handleNotification lines) m sc).
Proof. exact notified_says. Qed.
Print Assumptions C101_notified.

(** text mode: a text without Ctrl-Z and escape is the message; without carriage returns it is
    no command either, should the modem not be waiting for a message *)
Theorem C101_text : forall number text flash report m sc, smsTextMode m = true -> quotable number -> textual text ->
  Forall (fun t => orders t = [lit "+CMGS=" ++ in_quotes number] \/ (message t = Some (text, []) /\ (~ In 13 text -> orders t = [])))
    (sent (sendSms number text flash report) m sc).
Proof. exact text_says. Qed.
Print Assumptions C101_text.
(** PDU mode: for all numbers and texts whatsoever *)
Theorem C101_pdu : forall number text flash report m sc, smsTextMode m = false ->
  Forall (fun t => (exists n, 0 <= n /\ orders t = [lit "+CMGS=" ++ str_of_Z n]) \/
                   (exists hex, Forall (fun c => 48 <= c <= 57 \/ 65 <= c <= 70) hex /\ message t = Some (hex, []) /\ orders t = []))
    (sent (sendSms number text flash report) m sc).
Proof. exact pdu_says. Qed.
Print Assumptions C101_pdu.

(** nothing is checked or escaped: for every command there are arguments with which each of these
    methods has the modem carry it out *)
Theorem C101_smuggled : forall c, bare c -> c <> [] ->
  (forall a b m r rest, quotable a -> quotable b ->
     exists t ts, sent (sendUssd_start (smuggle a (lit ",15") c (lit "+CUSD=1,") b)) m (r :: rest) = t :: ts /\
       orders t = [lit "+CUSD=1," ++ in_quotes a ++ lit ",15"; c; lit "+CUSD=1," ++ in_quotes b ++ lit ",15"]) /\
  (forall n callback m r rest, bare n ->
     exists t ts, sent (dial_start (n ++ lit ";" ++ c) callback) m (r :: rest) = t :: ts /\ orders t = [lit "D" ++ n; c]) /\
  (forall a b m r rest, quotable a -> quotable b -> alive m = true -> smscNumber m <> Some (smuggle a [] c (lit "+CSCA=") b) ->
     exists t ts, sent (set_smsc (smuggle a [] c (lit "+CSCA=") b)) m (r :: rest) = t :: ts /\
       orders t = [lit "+CSCA=" ++ in_quotes a; c; lit "+CSCA=" ++ in_quotes b]) /\
  (forall a b text flash report m r rest, quotable a -> quotable b -> smsTextMode m = true ->
     exists t ts, sent (sendSms (smuggle a [] c (lit "+CMGS=") b) text flash report) m (r :: rest) = t :: ts /\
       orders t = [lit "+CMGS=" ++ in_quotes a; c; lit "+CMGS=" ++ in_quotes b]) /\
  (forall a number flash report m ls line r rest, textual a -> smsTextMode m = true -> good_line line ->
     exists t1 t2 ts more, sent (sendSms number (a ++ [26] ++ lit "AT" ++ c ++ [13]) flash report) m (Lines (ls ++ [line]) :: r :: rest) = t1 :: t2 :: ts /\
       message t2 = Some (a, more) /\ orders more = [c]) /\
  (forall a b r rest, quotable a -> quotable b ->
     let ok := Lines [lit "OK"] in
     exists t, In t (sent (connect (Some (smuggle a [] c (lit "+CPIN=") b))) modem_init
         (ok :: ok :: Lines [lit "+CFUN: 1"; lit "OK"] :: ok :: Lines [lit "+CPIN: SIM PIN"; lit "OK"] :: r :: rest)) /\
       orders t = [lit "+CPIN=" ++ in_quotes a; c; lit "+CPIN=" ++ in_quotes b]).
Proof. exact smuggled_all. Qed.
Print Assumptions C101_smuggled.

Example C101_example :
  let ok := Lines [lit "OK"] in
  sent (sendUssd_start (lit "*100;1#")) modem_init [ok] = [lit "AT+CUSD=1,""*100;1#"",15" ++ [13]] /\
  orders (lit "AT+CUSD=1,""*100;1#"",15" ++ [13]) = [lit "+CUSD=1,""*100;1#"",15"] /\
  sent (dial_start (lit "123;+CMGD=1,4") false) modem_init [ok] = [lit "ATD123;+CMGD=1,4;" ++ [13]] /\
  orders (lit "ATD123;+CMGD=1,4;" ++ [13]) = [lit "D123"; lit "+CMGD=1,4"] /\
  (let m := set_smsTextMode true modem_init in
   let text := lit "hello" ++ [26] ++ lit "ATD0900;" ++ [13] in
   sent (sendSms (lit "123") text false false) m [Lines [lit "> "]; Lines [lit "+CMGS: 1"; lit "OK"]] =
     [lit "AT+CMGS=""123""" ++ [13]; text ++ [26]] /\
   message (text ++ [26]) = Some (lit "hello", lit "ATD0900;" ++ [13; 26]) /\ orders (lit "ATD0900;" ++ [13; 26]) = [lit "D0900"]) /\
  (sent (handleNotification [lit "+CMTI: ""SM"",7"]) modem_init [ok; Lines [lit "OK"]] = [lit "AT+CPMS=""SM""" ++ [13]; lit "AT+CMGR=7" ++ [13]]) /\
  (let sc := [ok; ok; Lines [lit "+CFUN: 1"; lit "OK"]; ok; Lines [lit "+CPIN: SIM PIN"; lit "OK"]; ok; Lines [lit "ERROR"]] in
   Forall honest sc /\ flat_map orders (sent (connect (Some (lit "12;34"))) modem_init sc) =
     [lit "Z"; lit "E0"; lit "+CFUN?"; lit "+CMEE=1"; lit "+CPIN?"; lit "+CPIN=""12;34"""; lit "+CLAC"]).
Proof.
  cbv zeta. split; [reflexivity|]. split; [reflexivity|]. split; [reflexivity|]. split; [reflexivity|]. split; [repeat split|]. split; [reflexivity|]. split; [|reflexivity].
  repeat (apply Forall_cons; cbn [honest]); try apply Forall_nil; intros n (sp & ds & nl & E & _); discriminate E.
Qed.
