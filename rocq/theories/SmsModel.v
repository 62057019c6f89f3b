(** Model of gsmmodem/modem.py: sending, reading, listing and deleting SMS.

    In quoted patterns Q stands for the double quote, and "* )" is written for
    an asterisk before a closing parenthesis.

    A connected modem is modelled: the patterns that _compileSmsRegexes (modem.py:545-552)
    compiles for the current mode exist. *)
From Verif Require Export Base RegexModel UtilModel PduModel ModemCore.

(** dict with integer keys, in insertion order *)
Fixpoint zget {A} (d : list (Z * A)) (k : Z) : option A :=
  match d with [] => None | (j, x) :: d' => if j =? k then Some x else zget d' k end.
Fixpoint zset {A} (d : list (Z * A)) (k : Z) (x : A) : list (Z * A) :=
  match d with [] => [(k, x)] | (j, y) :: d' => if j =? k then (j, x) :: d' else (j, y) :: zset d' k x end.
Definition zdel {A} (d : list (Z * A)) (k : Z) : list (Z * A) := filter (fun p => negb (fst p =? k)) d.
(** replacing an object *)
Fixpoint update {A} (l : list A) (n : nat) (f : A -> A) : list A :=
  match l, n with [], _ => [] | x :: l', O => f x :: l' | x :: l', S n' => x :: update l' n' f end.

(** dict literal TEXT_MODE_STATUS_MAP, modem.py:37-41 *)
Definition TEXT_MODE_STATUS_MAP : list (str * Z) :=
  [(lit "REC UNREAD", 0); (lit "REC READ", 1); (lit "STO UNSENT", 2); (lit "STO SENT", 3); (lit "ALL", 4)].
Definition text_status (s : str) : res Z :=
  match find (fun p => str_eqb (fst p) s) TEXT_MODE_STATUS_MAP with Some p => Ok (snd p) | None => Err KeyError end.

(** ** Settings *)

(** smsTextMode setter, modem.py:523-530 *)
Definition set_text_mode (textMode : bool) : M unit :=
  do m <- get;
  if negb (Bool.eqb textMode (smsTextMode m)) then
    (if alive m then write (lit "AT+CMGF=" ++ str_of_Z (if textMode then 1 else 0)) ;;; ret tt else ret tt) ;;;
    modify (set_smsTextMode textMode)
  else ret tt.

Definition opt_str_eqb (a b : option str) : bool :=
  match a, b with Some x, Some y => str_eqb x y | None, None => true | _, _ => false end.

(** _setSmsMemory, modem.py:532-543.  self.write() without argument (line 536) is a
    TypeError, so the rest of that branch is not reached. *)
Definition setSmsMemory (readDelete write_mem : option str) : M unit :=
  do m <- get;
  match write_mem with
  | Some wm => if negb (opt_str_eqb write_mem (memWrite m)) then raise TypeError
      else match readDelete with
      | Some rd => if negb (opt_str_eqb readDelete (memRead m)) then
          write (lit "AT+CPMS=""" ++ rd ++ lit """") ;;; modify (set_memRead readDelete) else ret tt
      | None => ret tt end
  | None =>
      match readDelete with
      | Some rd => if negb (opt_str_eqb readDelete (memRead m)) then
          write (lit "AT+CPMS=""" ++ rd ++ lit """") ;;; modify (set_memRead readDelete) else ret tt
      | None => ret tt end
  end.

(** '\+CSCA:\s*Q([^,]+)Q,(\d+)$', modem.py:563 *)
Definition CSCA_REGEX : re :=
  RLit (lit "+CSCA:") ;; star c_space ;; RLit (lit """") ;; RGrp (plus (c_not 44)) ;; RLit (lit """,") ;; RGrp (plus c_digit) ;; REol.

(** smsc getter, modem.py:554-566 *)
Definition get_smsc : M (option str) :=
  do m <- get;
  match smscNumber m with
  | Some n => ret (Some n)
  | None =>
      do readSmsc <- try_except (do ls <- write (lit "AT+CSCA?"); ret (Some ls))
        (fun e => match e with SmscNumberUnknownError _ _ => Some (ret None) | _ => None end);
      match readSmsc with
      | Some ls =>
          match line_matching CSCA_REGEX ls with
          | Some cscaMatch => modify (set_smscNumber (Some (group 1 cscaMatch))) ;;; ret (Some (group 1 cscaMatch))
          | None => ret None
          end
      | None => ret None
      end
  end.
(** smsc setter, modem.py:567-573 (called with a str) *)
Definition set_smsc (n : str) : M unit :=
  do m <- get;
  if negb (opt_str_eqb (Some n) (smscNumber m)) then
    (if alive m then write (lit "AT+CSCA=""" ++ n ++ lit """") ;;; ret tt else ret tt) ;;;
    modify (set_smscNumber (Some n))
  else ret tt.

(** ** sendSms, modem.py:627-666 *)
Definition CTRL_Z : str := [26].
Definition cmgs_missing : exn := CommandError (Some (lit "Modem did not respond with +CMGS response")).

(** lines 646-649: the loop over the PDUs.  [result]: the value of the variable
    so far.  encodeSmsSubmitPdu returns at least one PDU, so that the variable is
    always assigned. *)
Fixpoint send_pdus (pdus : list pdu) (result : option str) : M (option str) :=
  match pdus with
  | [] => ret result
  | p :: pdus' =>
      write (lit "AT+CMGS=" ++ str_of_Z (pdu_tpduLength p)) ;;;
      do ls <- write_with (pdu_str (pdu_data p)) CTRL_Z true;
      send_pdus pdus' (lineStartingWith (lit "+CMGS:") ls)
  end.
Definition send_text (destination text : str) : M (option str) :=
  write (lit "AT+CMGS=""" ++ destination ++ lit """") ;;;
  do ls <- write_with text CTRL_Z true;
  ret (lineStartingWith (lit "+CMGS:") ls).

(** Up to line 660.  With [waitForDeliveryReport] the event is created, and the wait
    is [sendSms_wait].  The result is the number of the SentSms object. *)
Definition sendSms (destination text : str) (sendFlash waitForDeliveryReport : bool) : M nat :=
  do m <- get;
  do result <-
    (if smsTextMode m then send_text destination text
     else do pdus <- lift (encodeSmsSubmitPdu destination text (smsRef m) VNone None true false sendFlash);
          send_pdus pdus None);
  match result with
  | None => raise cmgs_missing
  | Some line =>
      do reference <- lift (py_int 10 (skipn 7 line));
      modify (set_smsRef (reference + 1)) ;;;
      do m <- get;
      (if 255 <? smsRef m then modify (set_smsRef 0) else ret tt) ;;;
      do m <- get;
      let obj := length (sentObjs m) in
      modify (set_sentObjs (sentObjs m ++ [mk_sent destination text reference None])) ;;;
      do m <- get;
      modify (set_sentTable (zset (sentTable m) reference obj)) ;;;
      (if waitForDeliveryReport then modify (set_reportEvent (Some false)) else ret tt) ;;;
      ret obj
  end.
(** Lines 661-665: the end of the wait, successful if the event has been set. *)
Definition sendSms_wait : M unit :=
  do m <- get;
  modify (set_reportEvent None) ;;;
  match reportEvent m with
  | Some true => ret tt
  | _ => raise (TimeoutException None)
  end.

(** SentSms.status, modem.py:75-85: ENROUTE 0, DELIVERED 1, FAILED 2 *)
Definition sent_status (s : sent_sms) : Z :=
  match s_report s with None => 0 | Some deliveryStatus => if deliveryStatus =? 0 then 1 else 2 end.

(** ** Reading *)

(** modem.py:549: '^\+CMGR: Q([^Q]+)Q,Q([^Q]+)Q,[^,]*,Q([^Q]+)Q$' *)
Definition CMGR_SM_DELIVER_REGEX_TEXT : re :=
  RLit (lit "+CMGR: """) ;; RGrp (plus (c_not 34)) ;; RLit (lit """,""") ;; RGrp (plus (c_not 34)) ;; RLit (lit """,") ;;
  star (c_not 44) ;; RLit (lit ",""") ;; RGrp (plus (c_not 34)) ;; RLit (lit """") ;; REol.
(** modem.py:550: '^\+CMGR: ([^,]* ),\d+,(\d+),Q{0,1}([^Q]* )Q{0,1},\d*,Q([^Q]+)Q,Q([^Q]+)Q,(\d+)$' *)
Definition CMGR_SM_REPORT_REGEXT_TEXT : re :=
  RLit (lit "+CMGR: ") ;; RGrp (star (c_not 44)) ;; RLit (lit ",") ;; plus c_digit ;; RLit (lit ",") ;; RGrp (plus c_digit) ;;
  RLit (lit ",") ;; opt (c_is 34) ;; RGrp (star (c_not 34)) ;; opt (c_is 34) ;; RLit (lit ",") ;; star c_digit ;;
  RLit (lit ",""") ;; RGrp (plus (c_not 34)) ;; RLit (lit """,""") ;; RGrp (plus (c_not 34)) ;; RLit (lit """,") ;;
  RGrp (plus c_digit) ;; REol.
(** modem.py:552: '^\+CMGR: (\d* ),Q{0,1}([^Q]* )Q{0,1},(\d+)$' *)
Definition CMGR_REGEX_PDU : re :=
  RLit (lit "+CMGR: ") ;; RGrp (star c_digit) ;; RLit (lit ",") ;; opt (c_is 34) ;; RGrp (star (c_not 34)) ;; opt (c_is 34) ;;
  RLit (lit ",") ;; RGrp (plus c_digit) ;; REol.

(** The texts of these CommandErrors (lines 1055, 1059, 1073, 834) are not modelled. *)
Definition parse_failed : exn := CommandError (Some (lit "Failed to parse SMS message")).
Definition invalid_type : exn := CommandError (Some (lit "Invalid PDU type")).

(** lines 1068-1073 and 829-834: the Sms object for a decoded PDU *)
Definition sms_of_pdu (stat : Z) (d : sms) : res stored_sms :=
  match sms_type d with
  | SmsDeliver number _ time _ text => Ok (Received stat number time text (sms_smsc d))
  | SmsStatusReport reference number time discharge status => Ok (Report stat reference number time discharge status)
  | SmsSubmit _ _ _ _ _ _ => Err invalid_type
  end.

(** readStoredSms after the response has been read, modem.py:1037-1073 *)
Definition parse_cmgr_text (msgData : list str) : res stored_sms :=
  match msgData with
  | [] => Err IndexError
  | head :: rest =>
      match re_match CMGR_SM_DELIVER_REGEX_TEXT head with
      | Some m =>
          let* st := text_status (group 1 m) in
          let* time := parseTextModeTimeStr (group 3 m) in
          Ok (Received st (Some (group 2 m)) time (join [10] (removelast rest)) None)
      | None =>
          match re_match CMGR_SM_REPORT_REGEXT_TEXT head with
          | Some m =>
              let msgStatus := group 1 m in
              let msgStatus := if startswith msgStatus (lit """") then removelast (tl msgStatus) else msgStatus in
              let msgStatus := match msgStatus with [] => lit "REC UNREAD" | _ => msgStatus end in
              let* st := text_status msgStatus in
              let* reference := py_int 10 (group 2 m) in
              let* sent := parseTextModeTimeStr (group 4 m) in
              let* finalized := parseTextModeTimeStr (group 5 m) in
              let* deliverStatus := py_int 10 (group 6 m) in
              Ok (Report st reference (Some (group 3 m)) sent finalized deliverStatus)
          | None => Err parse_failed
          end
      end
  end.
Definition parse_cmgr_pdu (msgData : list str) : res stored_sms :=
  match msgData with
  | [] => Err IndexError
  | head :: rest =>
      match re_match CMGR_REGEX_PDU head with
      | None => Err parse_failed
      | Some m =>
          let stat := match py_int 10 (group 1 m) with Ok n => n | Err _ => 0 end in
          match rest with
          | [] => Err IndexError
          | pdu :: _ => let* d := decodeSmsPdu pdu in sms_of_pdu stat d
          end
      end
  end.
(** readStoredSms, modem.py:1021-1073.  [index] is the text of the index. *)
Definition readStoredSms (index : str) (memory : option str) : M stored_sms :=
  setSmsMemory memory None ;;;
  do msgData <- write (lit "AT+CMGR=" ++ index);
  do m <- get;
  lift (if smsTextMode m then parse_cmgr_text msgData else parse_cmgr_pdu msgData).

(** deleteStoredSms, modem.py:1075-1086 *)
Definition deleteStoredSms (index : str) (memory : option str) : M unit :=
  setSmsMemory memory None ;;;
  write (lit "AT+CMGD=" ++ index ++ lit ",0") ;;; ret tt.
(** deleteMultipleStoredSms, modem.py:1088-1112 *)
Definition deleteMultipleStoredSms (delFlag : Z) (memory : option str) : M unit :=
  if (0 <? delFlag) && (delFlag <=? 4) then
    setSmsMemory memory None ;;;
    write (lit "AT+CMGD=1," ++ str_of_Z delFlag) ;;; ret tt
  else raise ValueError.

(** ** Listing, modem.py:764-845 *)

(** line 783: '^\+CMGL: (\d+),Q([^Q]+)Q,Q([^Q]+)Q,[^,]*,Q([^Q]+)Q$' *)
Definition CMGL_TEXT : re :=
  RLit (lit "+CMGL: ") ;; RGrp (plus c_digit) ;; RLit (lit ",""") ;; RGrp (plus (c_not 34)) ;; RLit (lit """,""") ;;
  RGrp (plus (c_not 34)) ;; RLit (lit """,") ;; star (c_not 44) ;; RLit (lit ",""") ;; RGrp (plus (c_not 34)) ;; RLit (lit """") ;; REol.
(** line 813: '^\+CMGL:\s*(\d+),\s*(\d+),.*$' *)
Definition CMGL_PDU : re :=
  RLit (lit "+CMGL:") ;; star c_space ;; RGrp (plus c_digit) ;; RLit (lit ",") ;; star c_space ;; RGrp (plus c_digit) ;; RLit (lit ",") ;;
  star c_any ;; REol.

(** A listing so far: the messages, and the set delMessages.  The order in which
    Python enumerates the set is not modelled: here it is the order of insertion. *)
Definition listing := (list stored_sms * list Z)%type.
Definition add_del (d : list Z) (i : Z) : list Z := if existsb (Z.eqb i) d then d else d ++ [i].

(** lines 797-803, 807-811: the entry that the lines [msgLines] belong to, if any, is
    finished *)
Definition save_text (cur : option way) (msgLines : list str) (l : listing) : res listing :=
  match cur, msgLines with
  | Some m, _ :: _ =>
      let* st := text_status (group 2 m) in
      let* time := parseTextModeTimeStr (group 4 m) in
      let* i := py_int 10 (group 1 m) in
      Ok (fst l ++ [Received st (Some (group 3 m)) time (join [10] msgLines) None], add_del (snd l) i)
  | _, _ => Ok l
  end.
Fixpoint list_text (lines : list str) (cur : option way) (msgLines : list str) (l : listing) : res listing :=
  match lines with
  | [] => save_text cur msgLines l
  | line :: lines' =>
      match re_match CMGL_TEXT line with
      | Some m => let* l' := save_text cur msgLines l in list_text lines' (Some m) [] l'
      | None => list_text lines' cur (if negb (str_eqb line (lit "OK")) then msgLines ++ [line] else msgLines) l
      end
  end.
(** lines 814-837; [cur]: index and status while a PDU is awaited (readPdu) *)
Fixpoint list_pdu (lines : list str) (cur : option (Z * Z)) (l : listing) : res listing :=
  match lines with
  | [] => Ok l
  | line :: lines' =>
      match cur with
      | None =>
          match re_match CMGL_PDU line with
          | Some m =>
              let* msgIndex := py_int 10 (group 1 m) in
              let* msgStat := py_int 10 (group 2 m) in
              list_pdu lines' (Some (msgIndex, msgStat)) l
          | None => list_pdu lines' None l
          end
      | Some (msgIndex, msgStat) =>
          match decodeSmsPdu line with
          | Err EncodingError => list_pdu lines' cur l
          | Err e => Err e
          | Ok d => let* s := sms_of_pdu msgStat d in list_pdu lines' None (fst l ++ [s], add_del (snd l) msgIndex)
          end
      end
  end.

(** lines 779-790, 815, 838-845 *)
Fixpoint delete_each (d : list Z) : M unit :=
  match d with [] => ret tt | i :: d' => deleteStoredSms (str_of_Z i) None ;;; delete_each d' end.
Definition status_text (status : Z) : option str :=
  option_map fst (find (fun p => snd p =? status) TEXT_MODE_STATUS_MAP).
Definition listStoredSms (status : Z) (memory : option str) (delete : bool) : M (list stored_sms) :=
  setSmsMemory memory None ;;;
  do m <- get;
  do l <-
    (if smsTextMode m then
       match status_text status with
       | None => raise ValueError
       | Some s => do result <- write (lit "AT+CMGL=""" ++ s ++ lit """"); lift (list_text result None [] ([], []))
       end
     else do result <- write (lit "AT+CMGL=" ++ str_of_Z status); lift (list_pdu result None ([], [])));
  (if delete then (if status =? 4 then deleteMultipleStoredSms 4 None else delete_each (snd l)) else ret tt) ;;;
  ret (fst l).

(** processStoredSms, modem.py:744-762.  The callbacks are the application's and do
    nothing here but leave an event; in CallbackModel.v they do anything. *)
Fixpoint callback_each (l : list stored_sms) : M unit :=
  match l with [] => ret tt | s :: l' => tell (ESms s) ;;; callback_each l' end.
Fixpoint process_states (states : list Z) : M unit :=
  match states with
  | [] => ret tt
  | st :: states' => do messages <- listStoredSms st None true; callback_each messages ;;; process_states states'
  end.
Definition processStoredSms (unreadOnly : bool) : M unit :=
  process_states (if unreadOnly then [0] else [1; 0]).

(** ** Notifications *)

(** modem.py:121, 131: '\+CMTI:\s*Q([^Q]+)Q,(\d+)$' and the same with CDSI *)
Definition CMTI_REGEX : re :=
  RLit (lit "+CMTI:") ;; star c_space ;; RLit (lit """") ;; RGrp (plus (c_not 34)) ;; RLit (lit """,") ;; RGrp (plus c_digit) ;; REol.
Definition CDSI_REGEX : re :=
  RLit (lit "+CDSI:") ;; star c_space ;; RLit (lit """") ;; RGrp (plus (c_not 34)) ;; RLit (lit """,") ;; RGrp (plus c_digit) ;; REol.

(** _handleSmsReceived, modem.py:991-1000 *)
Definition handleSmsReceived (notificationLine : str) : M unit :=
  match re_match CMTI_REGEX notificationLine with
  | Some cmtiMatch =>
      do s <- readStoredSms (group 2 cmtiMatch) (Some (group 1 cmtiMatch));
      deleteStoredSms (group 2 cmtiMatch) None ;;;
      tell (ESms s)
  | None => ret tt
  end.
(** _handleSmsStatusReport, modem.py:1002-1019.  A ReceivedSms has no attribute
    "reference". *)
Definition handleSmsStatusReport (notificationLine : str) : M unit :=
  match re_match CDSI_REGEX notificationLine with
  | Some cdsiMatch =>
      do report <- readStoredSms (group 2 cdsiMatch) (Some (group 1 cdsiMatch));
      deleteStoredSms (group 2 cdsiMatch) None ;;;
      match report with
      | Received _ _ _ _ _ => raise AttributeError
      | Report _ reference _ _ _ deliveryStatus =>
          do m <- get;
          match zget (sentTable m) reference with
          | Some obj =>
              modify (set_sentObjs (update (sentObjs m) obj
                (fun s => mk_sent (s_number s) (s_text s) (s_reference s) (Some deliveryStatus))))
          | None => ret tt
          end ;;;
          do m <- get;
          match reportEvent m with
          | Some _ => modify (set_reportEvent (Some true))
          | None => tell (EReport report)
          end
      end
  | None => ret tt
  end.
