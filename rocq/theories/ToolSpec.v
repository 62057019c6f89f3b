(** Specification vocabulary for the programs in tools/. *)
From Verif Require Import Base PduModel ModemCore ModemSpec SmsModel CallModel NotifyModel SendSpec TrackSpec CoverageSpec ConnectSpec SetupSpec ToolModel.

(** commands and answers: no message is announced *)
Definition no_message (l : list (str * option reply)) : Prop := Forall (fun q => ~ starts_with (lit "AT+CMGS") (fst q)) l.
(** the modem was searching, then registered, then without signal or busy, and then
    had a signal *)
Definition covered (l : list (str * option reply)) : Prop :=
  exists S r1 W r2 ss, l = map (ask (lit "AT+CREG?")) (S ++ [r1]) ++ map (ask (lit "AT+CSQ")) (W ++ [r2]) /\
    Forall searching S /\ registered r1 /\ Forall weak W /\ strong r2 ss.

(** what sendsms.py says before it sends *)
Definition hello (port : str) : pout := Say (lit "Connecting to GSM modem on " ++ port ++ lit "...").
Definition checking : pout := Say (lit "Checking for network coverage...").
Definition sending (deliver : bool) : list pout :=
  [Say (10 :: lit "Please type your message and press enter to send it:");
   Say (10 :: if deliver then lit "Sending SMS and waiting for delivery report..." else lit "Sending SMS message...")].

(** What the reading thread handles before the program goes on; the reference and code
    of each report whose handler comes to its end. *)
Inductive received (m : modem) : list (Z * Z) -> modem -> Prop :=
| rc_nil : received m [] m
| rc_report reps m1 line mem idx sc st r nb t1 t2 code w1 w : received m reps m1 -> indication (lit "+CDSI:") mem idx line ->
    readStoredSms idx (Some mem) (start m1 sc) = Done (Ok (Report st r nb t1 t2 code)) w1 -> handleSmsStatusReport line (start m1 sc) = Done (Ok tt) w ->
    received m (reps ++ [(r, code)]) (dev w)
| rc_report_failed reps m1 line sc : received m reps m1 ->
    (forall w, handleSmsStatusReport line (start m1 sc) <> Done (Ok tt) w) \/ (forall mem idx, ~ indication (lit "+CDSI:") mem idx line) ->
    received m reps (state_after (handleSmsStatusReport line (start m1 sc)))
| rc_notified reps m1 lines sc : received m reps m1 -> Forall (fun l => ~ starts_with (lit "+CDSI") l) lines ->
    received m reps (state_after (handleNotification lines (start m1 sc))).
(** the code of the last report for a reference *)
Definition last_report (n : Z) (reps : list (Z * Z)) (v : option Z) : Prop :=
  match v with
  | Some c => exists before after, reps = before ++ (n, c) :: after /\ Forall (fun r => fst r <> n) after
  | None => Forall (fun r => fst r <> n) reps
  end.
(** what is said at the end *)
Definition verdict_text (v : option Z) (text : str) : Prop :=
  (v = None /\ text = lit "Message sent.") \/ (v = Some 0 /\ text = lit "Message sent and delivered OK.") \/
  (exists c, v = Some c /\ c <> 0 /\ text = lit "Message sent, but delivery failed.").

(** how sendsms.py ends without having sent the message completely; [tr]: the events *)
Inductive ending (port : str) (deliver : bool) (d text : str) (tr : list event) : list pout -> pend -> Prop :=
| en_pin_required : no_message (asked tr) ->
    ending port deliver d text tr [hello port; Complain (lit "Error: SIM card PIN required. Please specify a PIN with the -p argument.")] (Exits 1)
| en_pin_wrong : no_message (asked tr) -> ending port deliver d text tr [hello port; Complain (lit "Error: Incorrect SIM card PIN entered.")] (Exits 1)
| en_not_connected x : no_message (asked tr) -> (forall c n, x <> PinRequiredError c n) -> (forall c n, x <> IncorrectPinError c n) ->
    ending port deliver d text tr [hello port] (Uncaught x)
| en_no_signal : no_message (asked tr) ->
    ending port deliver d text tr [hello port; checking; Say (lit "Network signal strength is not sufficient, please adjust modem position/antenna and try again."); CloseModem] (Exits 1)
| en_no_network x : no_message (asked tr) -> (forall t, x <> TimeoutException t) -> ending port deliver d text tr [hello port; checking] (Uncaught x)
| en_unencodable x : no_message (asked tr) -> (forall t, x <> TimeoutException t) -> encodeSmsSubmitPdu d text 0 VNone None true false false = Err x ->
    ending port deliver d text tr (hello port :: checking :: sending deliver) (Uncaught x)
| en_timeout before evs pdus t : tr = before ++ evs -> no_message (asked before) -> encodeSmsSubmitPdu d text 0 VNone None true false false = Ok pdus ->
    transmits pdus evs (Err (TimeoutException t)) ->
    ending port deliver d text tr ((hello port :: checking :: sending deliver) ++ [Say (lit "Failed to send message: the send operation timed out"); CloseModem]) (Exits 1)
| en_failed before evs pdus y x : tr = before ++ evs -> no_message (asked before) -> encodeSmsSubmitPdu d text 0 VNone None true false false = Ok pdus ->
    transmits pdus evs y -> final_answer y (Err x) -> (forall t, x <> TimeoutException t) ->
    ending port deliver d text tr (hello port :: checking :: sending deliver) (Uncaught x).

(** ** identify-modem.py *)
(** asked with [t], the modem answers, perhaps after saying that it is busy; [ls]: the answer *)
Definition answers (t : string) (l : list (str * option reply)) (ls : list str) : Prop :=
  exists busy codes, l = map (ask (lit t)) (busy ++ [Lines ls]) /\ all_busy busy codes /\ good_answer ls.
Definition declines (t : string) (l : list (str * option reply)) : Prop :=
  exists busy codes r, l = map (ask (lit t)) (busy ++ [r]) /\ all_busy busy codes /\ refusal r.
Definition answers_or_declines (t : string) (l : list (str * option reply)) (x : option str) : Prop :=
  match x with Some x => exists more, answers t l (x :: more) | None => declines t l end.
(** commands, answers and what is printed *)
Definition identified (l : list (str * option reply)) (i : identity) : Prop :=
  exists a b c d e f g m1 m2 d1 d2 e1 e2 x1 x2 nw sg, l = a ++ b ++ c ++ (d ++ d1) ++ (e ++ e1) ++ f ++ g /\
    answers "AT+CGMI" a (i_manufacturer i :: m1) /\ answers "AT+CGMM" b (i_model i :: m2) /\
    (declines "AT+CGMR" c /\ i_revision i = None \/
     exists c0 c1 r0 more, c = c0 ++ c1 /\ answers "AT+CGMR" c0 (r0 :: more) /\ answers_or_declines "AT+CGMR" c1 (i_revision i)) /\
    answers "AT+CGSN" d d2 /\ (exists x, i_imei i = Some x /\ answers "AT+CGSN" d1 (x :: x1)) /\
    answers "AT+CIMI" e e2 /\ (exists x, i_imsi i = Some x /\ answers "AT+CIMI" e1 (x :: x2)) /\
    answers "AT+COPS?" f nw /\ match i_network i with Some name => first_says cops_line nw name | None => nothing_said cops_line nw end /\
    answers "AT+CSQ" g sg /\ signal sg (i_signal i).
