(** Model of gsmmodem/modem.py: running commands, GsmModem.write.

    The methods of GsmModem run here against a script: the list of what the serial
    layer hands back for each command that waits for a response, in order.  A
    method finishes with a value or an exception, or is still waiting when the
    script ends ([Stuck]); since scripts are arbitrary, the prefixes of a script
    are all the points at which the program can be interrupted.  The trace records
    what the method did: commands written, sleeps, callbacks made.

    Each method runs on its own here; methods running at the same time in several
    threads are modelled separately where a property is about them
    (SerialModel.v, HandlerModel.v). *)
From Verif Require Export Base RegexModel DateModel UtilModel.

(** What SerialComms.write hands back (serial_comms.py:120-141): the response
    lines, or TimeoutException with the lines received until then. *)
Inductive reply := Lines (ls : list str) | NoReply (partial : list str).

(** The tables of call status notifications, modem.py:253-287 *)
Inductive call_table := TNone | THuawei | TWavecom | TZte.

(** StatusReport, modem.py:88-106 (the modem proxy left out) and ReceivedSms, 49-60,
    as built by readStoredSms and listStoredSms *)
Inductive stored_sms :=
| Received (status : Z) (number : option str) (time : datetime) (text : str) (smsc : option str)
| Report (status reference : Z) (number : option str) (timeSent timeFinalized : datetime) (deliveryStatus : Z).

(** SentSms, modem.py:63-73.  [s_report]: None, or deliveryStatus of the report *)
Record sent_sms := mk_sent { s_number : str; s_text : str; s_reference : Z; s_report : option Z }.

(** Call and IncomingCall, modem.py:1207-1239, 1285-1306.  [c_incoming]: which of
    the two classes; [c_callback]: whether a status callback was given. *)
Record call := mk_call { c_id : Z; c_incoming : bool; c_type : option Z; c_number : option str; c_callback : bool;
  c_answered : bool; c_active : bool; c_ringing : bool; c_ringCount : Z }.

(** Ussd, modem.py:1323-1334 *)
Record ussd := mk_ussd { u_active : bool; u_message : option str }.

(** The attributes of a GsmModem object (modem.py:133-162) that the command level
    uses.  [writeWait] counts tenths of a second (in the code a float; only its
    being positive is ever tested).  Objects handed out to the application (sent
    messages, calls) are numbered in the order of their creation.  The weak
    references of the dict sentSms are modelled as ordinary ones: an entry that
    the garbage collector removes is one whose object nobody can look at any more. *)
Record modem := mk_modem {
  alive : bool;                     (* serial_comms.py:32 *)
  writeWait : Z;
  smsTextMode : bool;
  smscNumber : option str;
  smsRef : Z;
  sentObjs : list sent_sms;         (* the SentSms objects made so far *)
  sentTable : list (Z * nat);       (* sentSms: reference to object *)
  reportEvent : option bool;        (* _smsStatusReportEvent: None, or whether it is set *)
  memRead : option str;             (* _smsMemReadDelete *)
  memWrite : option str;            (* _smsMemWrite *)
  smsReadSupported : bool;
  clip : bool;                      (* _callingLineIdentification *)
  crc : bool;                       (* _extendedIncomingCallIndication *)
  callObjs : list call;             (* the Call objects made so far *)
  activeCalls : list (Z * nat);     (* id to object *)
  dialEvent : option bool;          (* _dialEvent *)
  dialResponse : option (Z * Z);    (* _dialResponse *)
  ussdEvent : option bool;          (* _ussdSessionEvent *)
  ussdResponse : option ussd;       (* _ussdResponse *)
  waitAtd : bool;                   (* _waitForAtdResponse *)
  waitInit : bool;                  (* _waitForCallInitUpdate *)
  mustPoll : bool;                  (* _mustPollCallStatus *)
  callUpdates : call_table;         (* _callStatusUpdates *)
  dtmfHuawei : bool;                (* Call.DTMF_COMMAND_BASE is '^DTMF={cid},' *)
  dtmfSupport : bool }.             (* Call.dtmfSupport *)

(** modem.py:133-162 *)
Definition modem_init : modem :=
  mk_modem false 0 false None 0 [] [] None None None true false false [] [] None None None None true true false TNone false false.

Definition set_alive (x : bool) (m : modem) : modem := mk_modem x (writeWait m) (smsTextMode m) (smscNumber m) (smsRef m) (sentObjs m) (sentTable m) (reportEvent m) (memRead m) (memWrite m) (smsReadSupported m) (clip m) (crc m) (callObjs m) (activeCalls m) (dialEvent m) (dialResponse m) (ussdEvent m) (ussdResponse m) (waitAtd m) (waitInit m) (mustPoll m) (callUpdates m) (dtmfHuawei m) (dtmfSupport m).
Definition set_writeWait (x : Z) (m : modem) : modem := mk_modem (alive m) x (smsTextMode m) (smscNumber m) (smsRef m) (sentObjs m) (sentTable m) (reportEvent m) (memRead m) (memWrite m) (smsReadSupported m) (clip m) (crc m) (callObjs m) (activeCalls m) (dialEvent m) (dialResponse m) (ussdEvent m) (ussdResponse m) (waitAtd m) (waitInit m) (mustPoll m) (callUpdates m) (dtmfHuawei m) (dtmfSupport m).
Definition set_smsTextMode (x : bool) (m : modem) : modem := mk_modem (alive m) (writeWait m) x (smscNumber m) (smsRef m) (sentObjs m) (sentTable m) (reportEvent m) (memRead m) (memWrite m) (smsReadSupported m) (clip m) (crc m) (callObjs m) (activeCalls m) (dialEvent m) (dialResponse m) (ussdEvent m) (ussdResponse m) (waitAtd m) (waitInit m) (mustPoll m) (callUpdates m) (dtmfHuawei m) (dtmfSupport m).
Definition set_smscNumber (x : option str) (m : modem) : modem := mk_modem (alive m) (writeWait m) (smsTextMode m) x (smsRef m) (sentObjs m) (sentTable m) (reportEvent m) (memRead m) (memWrite m) (smsReadSupported m) (clip m) (crc m) (callObjs m) (activeCalls m) (dialEvent m) (dialResponse m) (ussdEvent m) (ussdResponse m) (waitAtd m) (waitInit m) (mustPoll m) (callUpdates m) (dtmfHuawei m) (dtmfSupport m).
Definition set_smsRef (x : Z) (m : modem) : modem := mk_modem (alive m) (writeWait m) (smsTextMode m) (smscNumber m) x (sentObjs m) (sentTable m) (reportEvent m) (memRead m) (memWrite m) (smsReadSupported m) (clip m) (crc m) (callObjs m) (activeCalls m) (dialEvent m) (dialResponse m) (ussdEvent m) (ussdResponse m) (waitAtd m) (waitInit m) (mustPoll m) (callUpdates m) (dtmfHuawei m) (dtmfSupport m).
Definition set_sentObjs (x : list sent_sms) (m : modem) : modem := mk_modem (alive m) (writeWait m) (smsTextMode m) (smscNumber m) (smsRef m) x (sentTable m) (reportEvent m) (memRead m) (memWrite m) (smsReadSupported m) (clip m) (crc m) (callObjs m) (activeCalls m) (dialEvent m) (dialResponse m) (ussdEvent m) (ussdResponse m) (waitAtd m) (waitInit m) (mustPoll m) (callUpdates m) (dtmfHuawei m) (dtmfSupport m).
Definition set_sentTable (x : list (Z * nat)) (m : modem) : modem := mk_modem (alive m) (writeWait m) (smsTextMode m) (smscNumber m) (smsRef m) (sentObjs m) x (reportEvent m) (memRead m) (memWrite m) (smsReadSupported m) (clip m) (crc m) (callObjs m) (activeCalls m) (dialEvent m) (dialResponse m) (ussdEvent m) (ussdResponse m) (waitAtd m) (waitInit m) (mustPoll m) (callUpdates m) (dtmfHuawei m) (dtmfSupport m).
Definition set_reportEvent (x : option bool) (m : modem) : modem := mk_modem (alive m) (writeWait m) (smsTextMode m) (smscNumber m) (smsRef m) (sentObjs m) (sentTable m) x (memRead m) (memWrite m) (smsReadSupported m) (clip m) (crc m) (callObjs m) (activeCalls m) (dialEvent m) (dialResponse m) (ussdEvent m) (ussdResponse m) (waitAtd m) (waitInit m) (mustPoll m) (callUpdates m) (dtmfHuawei m) (dtmfSupport m).
Definition set_memRead (x : option str) (m : modem) : modem := mk_modem (alive m) (writeWait m) (smsTextMode m) (smscNumber m) (smsRef m) (sentObjs m) (sentTable m) (reportEvent m) x (memWrite m) (smsReadSupported m) (clip m) (crc m) (callObjs m) (activeCalls m) (dialEvent m) (dialResponse m) (ussdEvent m) (ussdResponse m) (waitAtd m) (waitInit m) (mustPoll m) (callUpdates m) (dtmfHuawei m) (dtmfSupport m).
Definition set_memWrite (x : option str) (m : modem) : modem := mk_modem (alive m) (writeWait m) (smsTextMode m) (smscNumber m) (smsRef m) (sentObjs m) (sentTable m) (reportEvent m) (memRead m) x (smsReadSupported m) (clip m) (crc m) (callObjs m) (activeCalls m) (dialEvent m) (dialResponse m) (ussdEvent m) (ussdResponse m) (waitAtd m) (waitInit m) (mustPoll m) (callUpdates m) (dtmfHuawei m) (dtmfSupport m).
Definition set_smsReadSupported (x : bool) (m : modem) : modem := mk_modem (alive m) (writeWait m) (smsTextMode m) (smscNumber m) (smsRef m) (sentObjs m) (sentTable m) (reportEvent m) (memRead m) (memWrite m) x (clip m) (crc m) (callObjs m) (activeCalls m) (dialEvent m) (dialResponse m) (ussdEvent m) (ussdResponse m) (waitAtd m) (waitInit m) (mustPoll m) (callUpdates m) (dtmfHuawei m) (dtmfSupport m).
Definition set_clip (x : bool) (m : modem) : modem := mk_modem (alive m) (writeWait m) (smsTextMode m) (smscNumber m) (smsRef m) (sentObjs m) (sentTable m) (reportEvent m) (memRead m) (memWrite m) (smsReadSupported m) x (crc m) (callObjs m) (activeCalls m) (dialEvent m) (dialResponse m) (ussdEvent m) (ussdResponse m) (waitAtd m) (waitInit m) (mustPoll m) (callUpdates m) (dtmfHuawei m) (dtmfSupport m).
Definition set_crc (x : bool) (m : modem) : modem := mk_modem (alive m) (writeWait m) (smsTextMode m) (smscNumber m) (smsRef m) (sentObjs m) (sentTable m) (reportEvent m) (memRead m) (memWrite m) (smsReadSupported m) (clip m) x (callObjs m) (activeCalls m) (dialEvent m) (dialResponse m) (ussdEvent m) (ussdResponse m) (waitAtd m) (waitInit m) (mustPoll m) (callUpdates m) (dtmfHuawei m) (dtmfSupport m).
Definition set_callObjs (x : list call) (m : modem) : modem := mk_modem (alive m) (writeWait m) (smsTextMode m) (smscNumber m) (smsRef m) (sentObjs m) (sentTable m) (reportEvent m) (memRead m) (memWrite m) (smsReadSupported m) (clip m) (crc m) x (activeCalls m) (dialEvent m) (dialResponse m) (ussdEvent m) (ussdResponse m) (waitAtd m) (waitInit m) (mustPoll m) (callUpdates m) (dtmfHuawei m) (dtmfSupport m).
Definition set_activeCalls (x : list (Z * nat)) (m : modem) : modem := mk_modem (alive m) (writeWait m) (smsTextMode m) (smscNumber m) (smsRef m) (sentObjs m) (sentTable m) (reportEvent m) (memRead m) (memWrite m) (smsReadSupported m) (clip m) (crc m) (callObjs m) x (dialEvent m) (dialResponse m) (ussdEvent m) (ussdResponse m) (waitAtd m) (waitInit m) (mustPoll m) (callUpdates m) (dtmfHuawei m) (dtmfSupport m).
Definition set_dialEvent (x : option bool) (m : modem) : modem := mk_modem (alive m) (writeWait m) (smsTextMode m) (smscNumber m) (smsRef m) (sentObjs m) (sentTable m) (reportEvent m) (memRead m) (memWrite m) (smsReadSupported m) (clip m) (crc m) (callObjs m) (activeCalls m) x (dialResponse m) (ussdEvent m) (ussdResponse m) (waitAtd m) (waitInit m) (mustPoll m) (callUpdates m) (dtmfHuawei m) (dtmfSupport m).
Definition set_dialResponse (x : option (Z * Z)) (m : modem) : modem := mk_modem (alive m) (writeWait m) (smsTextMode m) (smscNumber m) (smsRef m) (sentObjs m) (sentTable m) (reportEvent m) (memRead m) (memWrite m) (smsReadSupported m) (clip m) (crc m) (callObjs m) (activeCalls m) (dialEvent m) x (ussdEvent m) (ussdResponse m) (waitAtd m) (waitInit m) (mustPoll m) (callUpdates m) (dtmfHuawei m) (dtmfSupport m).
Definition set_ussdEvent (x : option bool) (m : modem) : modem := mk_modem (alive m) (writeWait m) (smsTextMode m) (smscNumber m) (smsRef m) (sentObjs m) (sentTable m) (reportEvent m) (memRead m) (memWrite m) (smsReadSupported m) (clip m) (crc m) (callObjs m) (activeCalls m) (dialEvent m) (dialResponse m) x (ussdResponse m) (waitAtd m) (waitInit m) (mustPoll m) (callUpdates m) (dtmfHuawei m) (dtmfSupport m).
Definition set_ussdResponse (x : option ussd) (m : modem) : modem := mk_modem (alive m) (writeWait m) (smsTextMode m) (smscNumber m) (smsRef m) (sentObjs m) (sentTable m) (reportEvent m) (memRead m) (memWrite m) (smsReadSupported m) (clip m) (crc m) (callObjs m) (activeCalls m) (dialEvent m) (dialResponse m) (ussdEvent m) x (waitAtd m) (waitInit m) (mustPoll m) (callUpdates m) (dtmfHuawei m) (dtmfSupport m).
Definition set_waitAtd (x : bool) (m : modem) : modem := mk_modem (alive m) (writeWait m) (smsTextMode m) (smscNumber m) (smsRef m) (sentObjs m) (sentTable m) (reportEvent m) (memRead m) (memWrite m) (smsReadSupported m) (clip m) (crc m) (callObjs m) (activeCalls m) (dialEvent m) (dialResponse m) (ussdEvent m) (ussdResponse m) x (waitInit m) (mustPoll m) (callUpdates m) (dtmfHuawei m) (dtmfSupport m).
Definition set_waitInit (x : bool) (m : modem) : modem := mk_modem (alive m) (writeWait m) (smsTextMode m) (smscNumber m) (smsRef m) (sentObjs m) (sentTable m) (reportEvent m) (memRead m) (memWrite m) (smsReadSupported m) (clip m) (crc m) (callObjs m) (activeCalls m) (dialEvent m) (dialResponse m) (ussdEvent m) (ussdResponse m) (waitAtd m) x (mustPoll m) (callUpdates m) (dtmfHuawei m) (dtmfSupport m).
Definition set_mustPoll (x : bool) (m : modem) : modem := mk_modem (alive m) (writeWait m) (smsTextMode m) (smscNumber m) (smsRef m) (sentObjs m) (sentTable m) (reportEvent m) (memRead m) (memWrite m) (smsReadSupported m) (clip m) (crc m) (callObjs m) (activeCalls m) (dialEvent m) (dialResponse m) (ussdEvent m) (ussdResponse m) (waitAtd m) (waitInit m) x (callUpdates m) (dtmfHuawei m) (dtmfSupport m).
Definition set_callUpdates (x : call_table) (m : modem) : modem := mk_modem (alive m) (writeWait m) (smsTextMode m) (smscNumber m) (smsRef m) (sentObjs m) (sentTable m) (reportEvent m) (memRead m) (memWrite m) (smsReadSupported m) (clip m) (crc m) (callObjs m) (activeCalls m) (dialEvent m) (dialResponse m) (ussdEvent m) (ussdResponse m) (waitAtd m) (waitInit m) (mustPoll m) x (dtmfHuawei m) (dtmfSupport m).
Definition set_dtmfHuawei (x : bool) (m : modem) : modem := mk_modem (alive m) (writeWait m) (smsTextMode m) (smscNumber m) (smsRef m) (sentObjs m) (sentTable m) (reportEvent m) (memRead m) (memWrite m) (smsReadSupported m) (clip m) (crc m) (callObjs m) (activeCalls m) (dialEvent m) (dialResponse m) (ussdEvent m) (ussdResponse m) (waitAtd m) (waitInit m) (mustPoll m) (callUpdates m) x (dtmfSupport m).
Definition set_dtmfSupport (x : bool) (m : modem) : modem := mk_modem (alive m) (writeWait m) (smsTextMode m) (smscNumber m) (smsRef m) (sentObjs m) (sentTable m) (reportEvent m) (memRead m) (memWrite m) (smsReadSupported m) (clip m) (crc m) (callObjs m) (activeCalls m) (dialEvent m) (dialResponse m) (ussdEvent m) (ussdResponse m) (waitAtd m) (waitInit m) (mustPoll m) (callUpdates m) (dtmfHuawei m) x.

(** What a method does.  [EWrite]: the text put on the wire, with what came back
    ([None]: not waited for); the prompt waited for is not recorded. *)
Inductive event :=
| EWrite (text : str) (r : option reply)
| ESleep (tenths : Z)
| ESms (s : stored_sms)              (* smsReceivedCallback *)
| EReport (s : stored_sms)           (* smsStatusReportCallback *)
| ERing (obj : nat)                  (* incomingCallCallback *)
| EStatus (obj : nat).               (* a call's status callback *)

Record world := mk_world { dev : modem; script : list reply; trace : list event }.

Inductive out (A : Type) :=
| Done (r : res A) (w : world)
| Stuck (w : world).                 (* waiting when the script ends *)
Arguments Done {A} r w.
Arguments Stuck {A} w.

Definition M (A : Type) := world -> out A.
Definition ret {A} (x : A) : M A := fun w => Done (Ok x) w.
Definition raise {A} (e : exn) : M A := fun w => Done (Err e) w.
Definition mbind {A B} (c : M A) (f : A -> M B) : M B := fun w =>
  match c w with
  | Done (Ok x) w' => f x w'
  | Done (Err e) w' => Done (Err e) w'
  | Stuck w' => Stuck w'
  end.
Notation "'do' p '<-' c ';' k" := (mbind c (fun p => k))
  (at level 200, p pattern, c at level 100, k at level 200, right associativity).
Notation "c ;;; k" := (mbind c (fun _ => k)) (at level 199, right associativity).
Definition lift {A} (x : res A) : M A := fun w => Done x w.
(** the current attributes; changing them *)
Definition get : M modem := fun w => Done (Ok (dev w)) w.
Definition modify (f : modem -> modem) : M unit := fun w => Done (Ok tt) (mk_world (f (dev w)) (script w) (trace w)).
Definition tell (e : event) : M unit := fun w => Done (Ok tt) (mk_world (dev w) (script w) (trace w ++ [e])).
(** try: c except ...: the handler gets the exceptions for which it gives a result *)
Definition try_except {A} (c : M A) (h : exn -> option (M A)) : M A := fun w =>
  match c w with
  | Done (Err e) w' => match h e with Some k => k w' | None => Done (Err e) w' end
  | o => o
  end.

(** ** Errors *)

(** exceptions.py:50-69 CmeError(command, code), with __new__ choosing the class *)
Definition mk_CmeError (command : str) (code : Z) : exn :=
  if code =? 11 then PinRequiredError command 11
  else if code =? 16 then IncorrectPinError command 16
  else if code =? 12 then PukRequiredError command 12
  else CmeError command code.
(** exceptions.py:106-121 CmsError(command, code) *)
Definition mk_CmsError (command : str) (code : Z) : exn :=
  if code =? 330 then SmscNumberUnknownError command 330 else CmsError command code.

(** isinstance(e, CommandError): exceptions.py:30-130 *)
Definition is_CommandError (e : exn) : bool :=
  match e with
  | CommandError _ | CmeError _ _ | PinRequiredError _ _ | IncorrectPinError _ _ | PukRequiredError _ _
  | CmsError _ _ | SmscNumberUnknownError _ _ => true
  | _ => false
  end.
(** isinstance(e, CmeError), with e.code *)
Definition cme_code (e : exn) : option Z :=
  match e with
  | CmeError _ c | PinRequiredError _ c | IncorrectPinError _ c | PukRequiredError _ c => Some c
  | _ => None
  end.

(** ** GsmModem.write, modem.py:387-446 *)

(** CM_ERROR_REGEX, modem.py:115: '^\+(CM[ES]) ERROR: (\d+)$' *)
Definition CM_ERROR_REGEX : re :=
  RLit (lit "+") ;; RGrp (RLit (lit "CM") ;; RCls (fun c => (c =? 69) || (c =? 83))) ;; RLit (lit " ERROR: ") ;;
  RGrp (plus c_digit) ;; REol.

(** What to do about a status line, modem.py:418-445: accept the response, raise, or
    retry. *)
Inductive verdict := VAccept | VRaise (e : exn) | VBusy (code : Z).
Definition judge (data cmdStatusLine : str) : verdict :=
  if contains cmdStatusLine (lit "ERROR") then
    match re_match CM_ERROR_REGEX cmdStatusLine with
    | Some m =>
        match py_int 10 (group 2 m) with
        | Ok errorCode =>
            if (errorCode =? 515) || (errorCode =? 14) then VBusy errorCode
            else if str_eqb (group 1 m) (lit "CME") then VRaise (mk_CmeError data errorCode)
            else VRaise (mk_CmsError data errorCode)
        | Err e => VRaise e
        end
    | None => VRaise (CommandError (Some data))
    end
  else if str_eqb cmdStatusLine (lit "COMMAND NOT SUPPORT") then
    VRaise (CommandError (Some (data ++ lit "(" ++ cmdStatusLine ++ lit ")")))
  else VAccept.

(** time.sleep(self._writeWait) if it is positive, lines 414-415 *)
Definition paused (wait : Z) (tr : list event) : list event :=
  if 0 <? wait then tr ++ [ESleep wait] else tr.

(** The call with waitForResponse=True.  Recursion (line 431) is on the script: each
    attempt takes one reply. *)
Fixpoint write_on (sc : list reply) (m : modem) (tr : list event) (data term : str) (parseError : bool)
  : out (list str) :=
  match sc with
  | [] => Stuck (mk_world m [] tr)
  | r :: sc' =>
      let tr := tr ++ [EWrite (data ++ term) (Some r)] in
      match r with
      | NoReply [] => Done (Err (TimeoutException None)) (mk_world m sc' tr)       (* serial_comms.py:133-139 *)
      | NoReply ls => Done (Err (TimeoutException (Some ls))) (mk_world m sc' tr)
      | Lines ls =>
          let tr := paused (writeWait m) tr in
          match rev ls with
          | [] => Done (Err IndexError) (mk_world m sc' tr)
          | cmdStatusLine :: _ =>
              if parseError then
                match judge data cmdStatusLine with
                | VAccept => Done (Ok ls) (mk_world m sc' tr)
                | VRaise e => Done (Err e) (mk_world m sc' tr)
                | VBusy code =>
                    let m := set_writeWait (writeWait m + 2) m in
                    let tr := tr ++ [ESleep (writeWait m)] in
                    match write_on sc' m tr data term parseError with
                    | Done (Ok result) w =>
                        Done (Ok result) (mk_world (set_writeWait (if code =? 515 then 1 else 0) (dev w)) (script w) (trace w))
                    | o => o
                    end
                end
              else Done (Ok ls) (mk_world m sc' tr)
          end
      end
  end.
Definition CR : str := [13].
(** self.write(data) with the default arguments, and with others *)
Definition write_with (data term : str) (parseError : bool) : M (list str) := fun w =>
  write_on (script w) (dev w) (trace w) data term parseError.
Definition write (data : str) : M (list str) := write_with data CR true.
Definition write_noparse (data : str) : M (list str) := write_with data CR false.
(** waitForResponse=False *)
Definition write_nowait (data : str) : M unit := fun w =>
  Done (Ok tt) (mk_world (dev w) (script w) (paused (writeWait (dev w)) (trace w ++ [EWrite (data ++ CR) None]))).

(** [ls[0]] *)
Definition first_line (ls : list str) : M str :=
  match ls with l :: _ => ret l | [] => raise IndexError end.
(** lineMatching / lineMatchingPattern of a regular expression *)
Definition line_matching (r : re) (ls : list str) : option way := lineMatchingPattern (re_match r) ls.

(** ** Simple queries *)

(** CSQ_REGEX, modem.py:117: '^\+CSQ:\s*(\d+),' *)
Definition CSQ_REGEX : re := RLit (lit "+CSQ:") ;; star c_space ;; RGrp (plus c_digit) ;; RLit (lit ",").
(** signalStrength, modem.py:448-461 *)
Definition signalStrength : M Z :=
  do ls <- write (lit "AT+CSQ");
  do l <- first_line ls;
  match re_match CSQ_REGEX l with
  | Some csq => do ss <- lift (py_int 10 (group 1 csq)); ret (if negb (ss =? 99) then ss else -1)
  | None => raise (CommandError None)
  end.

(** manufacturer, model, imei, imsi, modem.py:464-490 *)
Definition query_first (cmd : str) : M str := do ls <- write cmd; first_line ls.
Definition manufacturer := query_first (lit "AT+CGMI").
Definition model := query_first (lit "AT+CGMM").
Definition imei := query_first (lit "AT+CGSN").
Definition imsi := query_first (lit "AT+CIMI").
(** revision, modem.py:474-480 *)
Definition revision : M (option str) :=
  try_except (do l <- query_first (lit "AT+CGMR"); ret (Some l))
             (fun e => if is_CommandError e then Some (ret None) else None).

(** networkName, modem.py:492-497: '^\+COPS: (\d),(\d),"(.+)",{0,1}\d*$' *)
Definition COPS_REGEX : re :=
  RLit (lit "+COPS: ") ;; RGrp (RCls c_digit) ;; RLit (lit ",") ;; RGrp (RCls c_digit) ;; RLit (lit ",""") ;;
  RGrp (plus c_any) ;; RLit (lit """") ;; opt (c_is 44) ;; star c_digit ;; REol.
Definition networkName : M (option str) :=
  do ls <- write (lit "AT+COPS?");
  ret (match line_matching COPS_REGEX ls with Some m => Some (group 3 m) | None => None end).

(** ** waitForNetworkCoverage, modem.py:575-625 *)

(** '^\+CREG:\s*(\d),(\d)$' *)
Definition CREG_REGEX : re :=
  RLit (lit "+CREG:") ;; star c_space ;; RGrp (RCls c_digit) ;; RLit (lit ",") ;; RGrp (RCls c_digit) ;; REol.

(** The loop.  [timer]: for each round whether the timer has fired by then (the end
    of the list: it does not fire any more).  [fuel]: every round takes a reply. *)
Fixpoint coverage_loop (fuel : nat) (timer : list bool) (checkCreg : bool) : M Z :=
  match fuel with
  | O => raise OutOfFuel
  | S fuel' =>
      let (fired, timer') := match timer with b :: t => (b, t) | [] => (false, []) end in
      if (fired : bool) then raise (TimeoutException None)
      else if checkCreg then
        do ls <- write_noparse (lit "AT+CREG?");
        match line_matching CREG_REGEX ls with
        | Some m =>
            do status <- lift (py_int 10 (group 2 m));
            if (status =? 1) || (status =? 5) then tell (ESleep 10) ;;; coverage_loop fuel' timer' false
            else if status =? 3 then raise InvalidStateException
            else if status =? 0 then raise InvalidStateException
            else tell (ESleep 10) ;;; coverage_loop fuel' timer' true
        | None => tell (ESleep 10) ;;; coverage_loop fuel' timer' false
        end
      else
        do ss <- signalStrength;
        if 0 <? ss then ret ss
        else tell (ESleep 10) ;;; coverage_loop fuel' timer' false
  end.
Definition waitForNetworkCoverage (timer : list bool) : M Z := fun w =>
  coverage_loop (S (length (script w))) timer true w.
