(** Model of gsmmodem/modem.py:991-1000 _handleSmsReceived running in several threads
    at the same time.

    _handleModemNotification (modem.py:847-855) starts a thread for every
    notification.  The threads share the attribute _smsMemReadDelete and the
    serial port; SerialComms.write holds a lock from putting a command on the wire
    to the end of its response (serial_comms.py:120-141), so that attempts at
    commands exclude each other, but between attempts, and around the
    accesses to the attribute, the threads interleave. *)
From Verif Require Export Base RegexModel UtilModel PduModel ModemCore SmsModel.

(** Where a handler is.  The comments give the lines of modem.py that come next. *)
Inductive place :=
| Compare                            (* 532-541: readDelete != self._smsMemReadDelete *)
| Select                             (* 542: AT+CPMS *)
| Remember                           (* 543: self._smsMemReadDelete = readDelete *)
| Fetch                              (* 1036-1073: AT+CMGR, and what it makes of the response *)
| Erase (s : stored_sms)             (* 999, 1085-1086: AT+CMGD; the memory is not selected again *)
| Deliver (s : stored_sms)           (* 1000: smsReceivedCallback *)
| Delivered (s : stored_sms)
| Failed (e : exn).                  (* the thread ends with an exception *)

(** one attempt at a command: the result, or a retry (modem.py:424-437) *)
Definition attempt (command : str) (r : reply) : option (res (list str)) :=
  match write_on [r] modem_init [] command CR true with Done x _ => Some x | Stuck _ => None end.

Definition next (here : place) (x : option (res (list str))) (go : list str -> place) : place :=
  match x with
  | Some (Ok ls) => go ls
  | Some (Err e) => Failed e
  | None => here
  end.

(** A step of a handler for the index [i] in [memory]: the attribute and the place
    before, what is put on the wire and the reply (if anything is), the attribute
    and the place after, and the message handed to the callback. *)
Inductive handler_step (textMode : bool) (memory i : str) :
  option str -> place -> option (str * reply) -> option stored_sms -> option str -> place -> Prop :=
| st_compare attr :
    handler_step textMode memory i attr Compare None None attr (if opt_str_eqb (Some memory) attr then Fetch else Select)
| st_select attr r : let command := lit "AT+CPMS=""" ++ memory ++ lit """" in
    handler_step textMode memory i attr Select (Some (command ++ CR, r)) None attr (next Select (attempt command r) (fun _ => Remember))
| st_remember attr :
    handler_step textMode memory i attr Remember None None (Some memory) Fetch
| st_fetch attr r : let command := lit "AT+CMGR=" ++ i in
    handler_step textMode memory i attr Fetch (Some (command ++ CR, r)) None attr
      (next Fetch (attempt command r) (fun ls =>
         match (if textMode then parse_cmgr_text ls else parse_cmgr_pdu ls) with Ok s => Erase s | Err e => Failed e end))
| st_erase attr s r : let command := lit "AT+CMGD=" ++ i ++ lit ",0" in
    handler_step textMode memory i attr (Erase s) (Some (command ++ CR, r)) None attr (next (Erase s) (attempt command r) (fun _ => Deliver s))
| st_deliver attr s :
    handler_step textMode memory i attr (Deliver s) None (Some s) attr (Delivered s).
