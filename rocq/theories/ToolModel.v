(** Model of tools/sendsms.py:41-86 and tools/identify-modem.py:42-86, behind the
    parsing of the arguments.  A port has been given. *)
From Verif Require Export SmsModel ConnectModel.

(** What a program writes: a line to standard output, a line to standard error; the
    call modem.close(). *)
Inductive pout := Say (line : str) | Complain (line : str) | CloseModem.
(** How a program ends. *)
Inductive pend := Exits (code : Z) | Uncaught (e : exn).

(** try: ... except: the exception as a value *)
Definition attempt {A} (c : M A) : M (res A) := fun w =>
  match c w with Done x w' => Done (Ok x) w' | Stuck w' => Stuck w' end.

(** ** sendsms.py *)
Definition said_pin_required : str := lit "Error: SIM card PIN required. Please specify a PIN with the -p argument.".
Definition said_pin_wrong : str := lit "Error: Incorrect SIM card PIN entered.".
Definition said_no_signal : str := lit "Network signal strength is not sufficient, please adjust modem position/antenna and try again.".
Definition said_timed_out : str := lit "Failed to send message: the send operation timed out".
Definition said_sent : str := lit "Message sent.".
Definition said_delivered : str := lit "Message sent and delivered OK.".
Definition said_not_delivered : str := lit "Message sent, but delivery failed.".

(** Until sendSms returns or begins to wait for the report.  The three calls are
    made with what the modem will answer in the world's script; [timer]: see
    waitForNetworkCoverage; [text]: the line typed. *)
Inductive progress := Ended (outs : list pout) (e : pend) | SentOff (outs : list pout) (obj : nat).
(** lines 50-60 *)
Definition start_modem (pin : option str) (outs : list pout) (k : list pout -> M progress) : M progress :=
  do r <- attempt (connect pin);
  match r with
  | Err (PinRequiredError _ _) => ret (Ended (outs ++ [Complain said_pin_required]) (Exits 1))
  | Err (IncorrectPinError _ _) => ret (Ended (outs ++ [Complain said_pin_wrong]) (Exits 1))
  | Err e => ret (Ended outs (Uncaught e))
  | Ok _ => k outs
  end.
(** lines 50-79 *)
Definition sendsms (port : str) (pin : option str) (deliver : bool) (destination text : str) (timer : list bool) : M progress :=
  start_modem pin [Say (lit "Connecting to GSM modem on " ++ port ++ lit "...")] (fun outs =>
    let outs := outs ++ [Say (lit "Checking for network coverage...")] in
    do r <- attempt (waitForNetworkCoverage timer);
    match r with
    | Err (TimeoutException _) => ret (Ended (outs ++ [Say said_no_signal; CloseModem]) (Exits 1))
    | Err e => ret (Ended outs (Uncaught e))
    | Ok _ =>
        let outs := outs ++ [Say (10 :: lit "Please type your message and press enter to send it:");
                             Say (if deliver then 10 :: lit "Sending SMS and waiting for delivery report..."
                                  else 10 :: lit "Sending SMS message...")] in
        do r <- attempt (sendSms destination text false deliver);
        match r with
        | Err (TimeoutException _) => ret (Ended (outs ++ [Say said_timed_out; CloseModem]) (Exits 1))
        | Err e => ret (Ended outs (Uncaught e))
        | Ok obj => ret (SentOff outs obj)
        end
    end).
(** lines 73-86: the end of the wait, if there is one, and what is said.  [sms.report]
    is None or an object, which counts as true. *)
Definition sendsms_end (deliver : bool) (outs : list pout) (obj : nat) : M (list pout * pend) :=
  do r <- attempt (if deliver then sendSms_wait else ret tt);
  match r with
  | Err (TimeoutException _) => ret (outs ++ [Say said_timed_out; CloseModem], Exits 1)
  | Err e => ret (outs, Uncaught e)
  | Ok _ =>
      do m <- get;
      match nth_error (sentObjs m) obj with
      | Some s =>
          ret (outs ++ [CloseModem; Say (match s_report s with
                                        | Some _ => if sent_status s =? 1 then said_delivered else said_not_delivered
                                        | None => said_sent
                                        end)], Exits 0)
      | None => raise IndexError
      end
  end.

(** ** identify-modem.py, lines 59-86, behind connect *)
(** the commands of -d; each answer is printed as it is *)
Definition debug_commands : list str :=
  [lit "ATI"; lit "AT+CGMI"; lit "AT+CGMM"; lit "AT+CGMR"; lit "AT+CFUN=?"; lit "AT+WIND=?"; lit "AT+WIND?"; lit "AT+CPMS=?"; lit "AT+CNMI=?";
   lit "AT+CVHU=?"; lit "AT+CSMP?"; lit "AT+GCAP"; lit "AT+CPIN?"; lit "AT+CLAC"].
Fixpoint debug_dump (commands : list str) : M (list (str * list str)) :=
  match commands with
  | [] => ret []
  | c :: cs => do ls <- write_noparse c; do more <- debug_dump cs; ret ((c, ls) :: more)
  end.
(** x if x != None else 'N/A', where reading x twice asks the modem twice *)
Definition twice {A} (query : M (option A)) : M (option A) :=
  do x <- query;
  match x with Some _ => query | None => ret None end.
Record identity := mk_identity { i_manufacturer : str; i_model : str; i_revision : option str; i_imei : option str; i_imsi : option str;
                                 i_network : option str; i_signal : Z }.
Definition always {A} (query : M A) : M (option A) := do x <- query; ret (Some x).
Definition identify : M identity :=
  do a <- manufacturer; do b <- model; do c <- twice revision; do d <- twice (always imei); do e <- twice (always imsi);
  do f <- networkName; do g <- signalStrength; ret (mk_identity a b c d e f g).
