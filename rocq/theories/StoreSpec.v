(** The modem's message store, and what reading and deleting should do to it. *)
From Verif Require Import Base DateModel UtilModel PduModel ModemCore ModemSpec SendSpec TrackSpec CoverageSpec SmsModel.

(** ** The text of a stored message, as AT+CMGR presents it *)
(** PDU mode: "+CMGR: <stat>,"<alpha>",<length>" with the quotes optional; a missing
    status means 0 *)
Definition pdu_header (line : str) (stat : Z) : Prop :=
  exists ds q1 alpha q2 len nl, line = lit "+CMGR: " ++ ds ++ 44 :: q1 ++ alpha ++ q2 ++ 44 :: len ++ nl /\
    Forall (fun c => is_digit c = true) ds /\ (q1 = [] \/ q1 = [34]) /\ ~ In 34 alpha /\ (q2 = [] \/ q2 = [34]) /\ digits len /\ line_end nl /\
    stat = dec_value ds.
(** text mode, a received message: "+CMGR: "<status>","<number>",<alpha>,"<time>"" *)
Definition text_header (line status number time : str) : Prop :=
  exists alpha nl, line = lit "+CMGR: " ++ 34 :: status ++ [34; 44; 34] ++ number ++ [34; 44] ++ alpha ++ [44; 34] ++ time ++ 34 :: nl /\
    status <> [] /\ ~ In 34 status /\ number <> [] /\ ~ In 34 number /\ ~ In 44 alpha /\ time <> [] /\ ~ In 34 time /\ line_end nl.
(** text mode, a status report:
    "+CMGR: <status>,<fo>,<reference>,"<number>",<type>,"<sent>","<finalized>",<code>";
    the status is quoted or empty *)
Definition report_header (line status : str) (reference : Z) (number sent finalized : str) (code : Z) : Prop :=
  exists st fo rf ty cd nl, line = lit "+CMGR: " ++ st ++ 44 :: fo ++ 44 :: rf ++ [44; 34] ++ number ++ [34; 44] ++ ty ++ [44; 34] ++ sent ++
      [34; 44; 34] ++ finalized ++ [34; 44] ++ cd ++ nl /\
    ((st = [] /\ status = lit "REC UNREAD") \/ (st = 34 :: status ++ [34] /\ status <> [] /\ ~ In 34 status /\ ~ In 44 status)) /\
    digits fo /\ digits rf /\ reference = dec_value rf /\ ~ In 34 number /\ ~ In 44 number /\ Forall (fun c => is_digit c = true) ty /\
    sent <> [] /\ ~ In 34 sent /\ finalized <> [] /\ ~ In 34 finalized /\ digits cd /\ code = dec_value cd /\ line_end nl.
Definition status_named (status : str) (n : Z) : Prop :=
  In (status, n) [(lit "REC UNREAD", 0); (lit "REC READ", 1); (lit "STO UNSENT", 2); (lit "STO SENT", 3); (lit "ALL", 4)].
(** lines, joined with line feeds *)
Fixpoint text_of (lines : list str) : str :=
  match lines with [] => [] | [l] => l | l :: ls => l ++ 10 :: text_of ls end.

(** what a decoded PDU is handed out as *)
Inductive message_of (stat : Z) (d : sms) : stored_sms -> Prop :=
| mo_deliver number protocol time udh text : sms_type d = SmsDeliver number protocol time udh text ->
    message_of stat d (Received stat number time text (sms_smsc d))
| mo_report reference number time discharge status : sms_type d = SmsStatusReport reference number time discharge status ->
    message_of stat d (Report stat reference number time discharge status).

(** what the lines of a stored message (without the final status line) read as *)
Inductive reads_as : bool -> list str -> stored_sms -> Prop :=
| ra_pdu head stat pdu more d s : pdu_header head stat -> decodeSmsPdu pdu = Ok d -> message_of stat d s -> reads_as false (head :: pdu :: more) s
| ra_text head status number time body n t : text_header head status number time -> status_named status n -> parseTextModeTimeStr time = Ok t ->
    reads_as true (head :: body) (Received n (Some number) t (text_of body) None)
| ra_report head status reference number sent finalized code body n t1 t2 : report_header head status reference number sent finalized code ->
    status_named status n -> parseTextModeTimeStr sent = Ok t1 -> parseTextModeTimeStr finalized = Ok t2 ->
    reads_as true (head :: body) (Report n reference (Some number) t1 t2 code).

(** what is handed out for a stored message: in PDU mode exactly what it reads as; in
    text mode that, for every message of the forms above (the program also accepts
    some others, such as reports without quotes) *)
Definition handed_as (mode : bool) (content : list str) (s : stored_sms) : Prop :=
  (forall s', reads_as mode content s' -> s' = s) /\ (mode = false -> reads_as false content s).

(** ** The device *)
(** the memory selected for reading and deleting, and the messages stored *)
Definition cells := str -> Z -> option (list str).
Record device := mk_device { sel : str; stored : cells }.
Definition same_cell (m1 : str) (i1 : Z) (m2 : str) (i2 : Z) : bool := str_eqb m1 m2 && (i1 =? i2).
Definition put (c : cells) (mem : str) (i : Z) (x : option (list str)) : cells := fun m j => if same_cell m j mem i then x else c m j.
(** a reply that is neither "busy" nor a success *)
Definition failing (r : reply) : Prop := not_busy r /\ forall ls, r = Lines ls -> ~ good_answer ls.

(** What it answers and does.  It may always be busy or fail, and then does
    nothing. *)
Inductive answers (d : device) : str -> reply -> device -> Prop :=
| an_busy text code r : busy_reply code r -> answers d text r d
| an_fail text r : failing r -> answers d text r d
| an_select mem ls : ~ In 34 mem -> good_answer ls ->
    answers d (lit "AT+CPMS=" ++ 34 :: mem ++ [34; 13]) (Lines ls) (mk_device mem (stored d))
| an_read ds content : digits ds -> stored d (sel d) (dec_value ds) = Some content ->
    answers d (lit "AT+CMGR=" ++ ds ++ [13]) (Lines (content ++ [lit "OK"])) d
| an_delete ds ls : digits ds -> good_answer ls ->
    answers d (lit "AT+CMGD=" ++ ds ++ lit ",0" ++ [13]) (Lines ls) (mk_device (sel d) (put (stored d) (sel d) (dec_value ds) None)).

(** the device behind a trace *)
Inductive plays (d : device) : list event -> device -> Prop :=
| pl_nil : plays d [] d
| pl_write text r evs d1 d2 : answers d text r d1 -> plays d1 evs d2 -> plays d (EWrite text (Some r) :: evs) d2
| pl_sleep t evs d2 : plays d evs d2 -> plays d (ESleep t :: evs) d2
| pl_sms s evs d2 : plays d evs d2 -> plays d (ESms s :: evs) d2.

(** What the program believes to be selected is selected.  After connect() the
    attribute holds a text with quotes, which is none of the memories. *)
Definition in_sync (m : modem) (d : device) : Prop := forall x, memRead m = Some x -> ~ In 34 x -> sel d = x.

(** the messages passed to smsReceivedCallback *)
Definition passed (tr : list event) : list stored_sms := flat_map (fun e => match e with ESms s => [s] | _ => [] end) tr.
Definition failures (tr : list event) : Prop := exists text r, In (EWrite text (Some r)) tr /\ failing r.

(** ** Sessions: messages arrive, notifications are handled *)
Inductive act :=
| Arrived (mem : str) (index : Z) (content : list str)
| Passed (mem : str) (index : Z) (s : stored_sms).
(** what the acts mean for the store: a message arrives in a free cell; a message
    passed was there and is gone *)
Inductive replay (mode : bool) : cells -> list act -> cells -> Prop :=
| rp_nil c c' : (forall m i, c' m i = c m i) -> replay mode c [] c'
| rp_arrived c mem i content acts c' : c mem i = None -> replay mode (put c mem i (Some content)) acts c' ->
    replay mode c (Arrived mem i content :: acts) c'
| rp_passed c mem i s acts c' content : c mem i = Some content -> handed_as mode content s ->
    replay mode (put c mem i None) acts c' -> replay mode c (Passed mem i s :: acts) c'.

(** A session: notification lines are handled one after the other, successfully or
    not; messages arrive in free cells in between.  The acts are what is observed:
    arrivals, and callbacks made while a notification for a cell is handled. *)
Inductive session (m : modem) (d : device) : list act -> modem -> device -> Prop :=
| se_nil : session m d [] m d
| se_arrive acts m1 d1 mem i content : session m d acts m1 d1 -> stored d1 mem i = None ->
    session m d (acts ++ [Arrived mem i content]) m1 (mk_device (sel d1) (put (stored d1) mem i (Some content)))
| se_notify acts m1 d1 line mem ds sc x w d2 : session m d acts m1 d1 -> indication (lit "+CMTI:") mem ds line ->
    handleSmsReceived line (start m1 sc) = Done x w -> plays d1 (trace w) d2 ->
    session m d (acts ++ map (Passed mem (dec_value ds)) (passed (trace w))) (dev w) d2
| se_other acts m1 d1 line sc x w d2 : session m d acts m1 d1 -> (forall mem ds, ~ indication (lit "+CMTI:") mem ds line) ->
    handleSmsReceived line (start m1 sc) = Done x w -> plays d1 (trace w) d2 ->
    session m d acts (dev w) d2.

(** ** Reading and deleting one message of a given memory *)
(** reading changes nothing, and gives the message of that cell *)
Definition read_spec (mode : bool) (mem : str) (i : Z) (d d' : device) (evs : list event) (x : res stored_sms) : Prop :=
  stored d' = stored d /\
  match x with
  | Ok s => sel d' = mem /\ exists content, stored d mem i = Some content /\ handed_as mode content s
  | Err _ => failures evs \/ exists content, stored d mem i = Some content /\ forall s, ~ reads_as mode content s
  end.
(** deleting removes the message of that cell, and no other; or nothing *)
Definition delete_spec (mem : str) (i : Z) (d d' : device) (evs : list event) (x : res unit) : Prop :=
  match x with
  | Ok _ => forall mem' j, stored d' mem' j = if same_cell mem' j mem i then None else stored d mem' j
  | Err _ => (forall mem' j, stored d' mem' j = stored d mem' j) /\ failures evs
  end.
