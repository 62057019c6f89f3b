(** Model of gsmmodem/modem.py:627-666 sendSms, and of the end of _handleSmsStatusReport
    (modem.py:1012-1019), running in several threads at the same time.

    The application may call sendSms from several threads, and every notification is
    handled in a thread of its own (modem.py:847-855).  The threads share the
    attributes _smsRef, sentSms and _smsStatusReportEvent and the serial port;
    SerialComms.write holds a lock from putting a command on the wire to the end of
    its response (serial_comms.py:120-141), so that attempts at commands exclude each
    other, but sendSms holds nothing from the announcement of a PDU to the PDU itself,
    nor around the accesses to the attributes.

    Simplified: the message mode does not change; the pauses of write (the attribute
    _writeWait) are left out; an entry of the weak dictionary sentSms stays. *)
From Verif Require Export Base RegexModel UtilModel PduModel ModemCore SmsModel.

(** The attributes.  An Event object is a number; [sh_set]: the Events that have been
    set; [sh_made]: how many there are. *)
Record shared := mk_shared {
  sh_ref : Z;                      (* self._smsRef *)
  sh_objs : list sent_sms;         (* the SentSms objects, oldest first *)
  sh_table : list (Z * nat);       (* self.sentSms *)
  sh_event : option nat;           (* self._smsStatusReportEvent *)
  sh_set : list nat;
  sh_made : nat }.
Definition put_ref (n : Z) (h : shared) := mk_shared n (sh_objs h) (sh_table h) (sh_event h) (sh_set h) (sh_made h).
Definition put_objs (os : list sent_sms) (h : shared) := mk_shared (sh_ref h) os (sh_table h) (sh_event h) (sh_set h) (sh_made h).
Definition put_table (t : list (Z * nat)) (h : shared) := mk_shared (sh_ref h) (sh_objs h) t (sh_event h) (sh_set h) (sh_made h).
Definition put_event (e : option nat) (h : shared) := mk_shared (sh_ref h) (sh_objs h) (sh_table h) e (sh_set h) (sh_made h).
Definition new_event (h : shared) := mk_shared (sh_ref h) (sh_objs h) (sh_table h) (Some (sh_made h)) (sh_set h) (S (sh_made h)).
Definition fire (e : nat) (h : shared) := mk_shared (sh_ref h) (sh_objs h) (sh_table h) (sh_event h) (e :: sh_set h) (sh_made h).

(** the arguments of a call *)
Record job := mk_job { j_number : str; j_text : str; j_flash : bool; j_wait : bool }.
(** what is written for a part: the command of lines 643 and 648, and the text after
    the prompt (644, 649) *)
Definition part : Type := str * str.
Definition part_of_pdu (p : pdu) : part := (lit "AT+CMGS=" ++ str_of_Z (pdu_tpduLength p), pdu_str (pdu_data p)).
Definition parts_of (textMode : bool) (j : job) (reference : Z) : res (list part) :=
  if textMode then Ok [(lit "AT+CMGS=""" ++ j_number j ++ lit """", j_text j)]
  else let* pdus := encodeSmsSubmitPdu (j_number j) (j_text j) reference VNone None true false (j_flash j) in
       Ok (map part_of_pdu pdus).

(** Where a call is.  The comments give the lines of modem.py that come next. *)
Inductive stage :=
| Encode                                   (* 642, 646: with self._smsRef *)
| Announce (p : part) (ps : list part)     (* 643, 648 *)
| Transmit (p : part) (ps : list part)     (* 644, 649 *)
| Number (answer : list str)               (* 650-653: self._smsRef = reference + 1 *)
| Check (n : Z)                            (* 654: self._smsRef > 255 *)
| Reset (n : Z)                            (* 655: self._smsRef = 0 *)
| Record_ (n : Z)                          (* 656-658: the SentSms object, self.sentSms[reference] = sms *)
| Expect (obj : nat)                       (* 660: self._smsStatusReportEvent = threading.Event() *)
| Await (obj : nat)                        (* 661: self._smsStatusReportEvent.wait *)
| Waiting (obj e : nat)                    (* 661: in wait *)
| Woken (obj : nat)                        (* 662, 666 *)
| GivenUp (obj : nat)                      (* 664, 665 *)
| Over (x : res nat).

(** one attempt at a command: the result, or a retry (modem.py:424-437) *)
Definition attempt_with (command term : str) (r : reply) : option (res (list str)) :=
  match write_on [r] modem_init [] command term true with Done x _ => Some x | Stuck _ => None end.
Definition proceed (here : stage) (x : option (res (list str))) (go : list str -> stage) : stage :=
  match x with
  | Some (Ok ls) => go ls
  | Some (Err e) => Over (Err e)
  | None => here
  end.
Definition continue (ps : list part) (answer : list str) : stage :=
  match ps with p :: ps' => Announce p ps' | [] => Number answer end.

(** A step of a call: the attributes and the place before, what is put on the wire and
    the reply (if anything is), the attributes and the place after.  wait() returns
    whether the event is set (661); it may give up at any time before. *)
Inductive sender_step (textMode : bool) (j : job) : shared -> stage -> option (str * reply) -> shared -> stage -> Prop :=
| ss_encode h :
    sender_step textMode j h Encode None h (match parts_of textMode j (sh_ref h) with Ok ps => continue ps [] | Err e => Over (Err e) end)
| ss_announce h p ps r :
    sender_step textMode j h (Announce p ps) (Some (fst p ++ CR, r)) h
      (proceed (Announce p ps) (attempt_with (fst p) CR r) (fun _ => Transmit p ps))
| ss_transmit h p ps r :
    sender_step textMode j h (Transmit p ps) (Some (snd p ++ CTRL_Z, r)) h
      (proceed (Transmit p ps) (attempt_with (snd p) CTRL_Z r) (fun ls => continue ps ls))
| ss_missing h answer : lineStartingWith (lit "+CMGS:") answer = None ->
    sender_step textMode j h (Number answer) None h (Over (Err cmgs_missing))
| ss_unreadable h answer line e : lineStartingWith (lit "+CMGS:") answer = Some line -> py_int 10 (skipn 7 line) = Err e ->
    sender_step textMode j h (Number answer) None h (Over (Err e))
| ss_number h answer line n : lineStartingWith (lit "+CMGS:") answer = Some line -> py_int 10 (skipn 7 line) = Ok n ->
    sender_step textMode j h (Number answer) None (put_ref (n + 1) h) (Check n)
| ss_check h n :
    sender_step textMode j h (Check n) None h (if 255 <? sh_ref h then Reset n else Record_ n)
| ss_reset h n :
    sender_step textMode j h (Reset n) None (put_ref 0 h) (Record_ n)
| ss_record h n : let obj := length (sh_objs h) in
    sender_step textMode j h (Record_ n) None
      (put_table (zset (sh_table h) n obj) (put_objs (sh_objs h ++ [mk_sent (j_number j) (j_text j) n None]) h))
      (if j_wait j then Expect obj else Over (Ok obj))
| ss_expect h obj :
    sender_step textMode j h (Expect obj) None (new_event h) (Await obj)
| ss_await h obj :
    sender_step textMode j h (Await obj) None h
      (match sh_event h with Some e => Waiting obj e | None => Over (Err AttributeError) end)
| ss_wake h obj e : In e (sh_set h) ->
    sender_step textMode j h (Waiting obj e) None h (Woken obj)
| ss_timeout h obj e : ~ In e (sh_set h) ->
    sender_step textMode j h (Waiting obj e) None h (GivenUp obj)
| ss_woken h obj :
    sender_step textMode j h (Woken obj) None (put_event None h) (Over (Ok obj))
| ss_given_up h obj :
    sender_step textMode j h (GivenUp obj) None (put_event None h) (Over (Err (TimeoutException None))).

(** Where a handler of a status report is, after it has read and deleted the report. *)
Inductive rstage :=
| Lookup                             (* 1012: report.reference in self.sentSms *)
| Assign                             (* 1013: self.sentSms[report.reference].report = report *)
| Test                               (* 1014: if self._smsStatusReportEvent *)
| Fire                               (* 1016: self._smsStatusReportEvent.set() *)
| Tell                               (* 1019: smsStatusReportCallback *)
| Handled (x : res unit).
(** A step of the handler of a report with the reference [r] and the status [code];
    the boolean: the callback is called. *)
Inductive report_step (r code : Z) : shared -> rstage -> bool -> shared -> rstage -> Prop :=
| rp_lookup h : report_step r code h Lookup false h (match zget (sh_table h) r with Some _ => Assign | None => Test end)
| rp_assign h obj : zget (sh_table h) r = Some obj ->
    report_step r code h Assign false
      (put_objs (update (sh_objs h) obj (fun s => mk_sent (s_number s) (s_text s) (s_reference s) (Some code))) h) Test
| rp_gone h : zget (sh_table h) r = None -> report_step r code h Assign false h (Handled (Err KeyError))
| rp_test h : report_step r code h Test false h (match sh_event h with Some _ => Fire | None => Tell end)
| rp_fire h e : sh_event h = Some e -> report_step r code h Fire false (fire e h) (Handled (Ok tt))
| rp_fire_none h : sh_event h = None -> report_step r code h Fire false h (Handled (Err AttributeError))
| rp_tell h : report_step r code h Tell true h (Handled (Ok tt)).
