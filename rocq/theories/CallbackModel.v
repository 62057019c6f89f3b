(** The methods of gsmmodem/modem.py that call back the application, with callbacks that
    are arbitrary computations: they may use the modem, raise, and never return.  Where
    the other models only note that a callback is called (the event), the callback runs
    here right behind the event.  Attributes that a callback can have changed are read
    again where the program does so. *)
From Verif Require Import Base RegexModel UtilModel ModemCore SmsModel CallModel UssdModel NotifyModel.

(** The application: smsReceivedCallback, smsStatusReportCallback, incomingCallCallback
    (modem.py:136-140), and the status callback of calls (1219). *)
Record client := mk_client {
  on_sms : stored_sms -> M unit;
  on_report : stored_sms -> M unit;
  on_ring : nat -> M unit;
  on_status : nat -> M unit }.
(** callbacks that do nothing *)
Definition idle : client := mk_client (fun _ => ret tt) (fun _ => ret tt) (fun _ => ret tt) (fun _ => ret tt).

Section Application.
Context (a : client).

(** ** Messages *)
(** modem.py:744-762 *)
Fixpoint callback_each_with (l : list stored_sms) : M unit :=
  match l with [] => ret tt | s :: l' => tell (ESms s) ;;; on_sms a s ;;; callback_each_with l' end.
Fixpoint process_states_with (states : list Z) : M unit :=
  match states with
  | [] => ret tt
  | st :: states' => do messages <- listStoredSms st None true; callback_each_with messages ;;; process_states_with states'
  end.
Definition processStoredSms_with (unreadOnly : bool) : M unit :=
  process_states_with (if unreadOnly then [0] else [1; 0]).

(** _handleSmsReceived, modem.py:991-1000 *)
Definition handleSmsReceived_with (notificationLine : str) : M unit :=
  match re_match CMTI_REGEX notificationLine with
  | Some cmtiMatch =>
      do s <- readStoredSms (group 2 cmtiMatch) (Some (group 1 cmtiMatch));
      deleteStoredSms (group 2 cmtiMatch) None ;;;
      tell (ESms s) ;;;
      on_sms a s
  | None => ret tt
  end.
(** _handleSmsStatusReport, modem.py:1002-1019 *)
Definition handleSmsStatusReport_with (notificationLine : str) : M unit :=
  match re_match CDSI_REGEX notificationLine with
  | Some cdsiMatch =>
      do report <- readStoredSms (group 2 cdsiMatch) (Some (group 1 cdsiMatch));
      deleteStoredSms (group 2 cdsiMatch) None ;;;
      match report with
      | Received _ _ _ _ _ => raise AttributeError
      | Report _ reference _ _ _ deliveryStatus =>
          do m <- get;
          match zget (sentTable m) reference with
          | Some obj =>
              modify (set_sentObjs (update (sentObjs m) obj
                (fun s => mk_sent (s_number s) (s_text s) (s_reference s) (Some deliveryStatus))))
          | None => ret tt
          end ;;;
          do m <- get;
          match reportEvent m with
          | Some _ => modify (set_reportEvent (Some true))
          | None => tell (EReport report) ;;; on_report a report
          end
      end
  | None => ret tt
  end.

(** ** Calls *)
(** answered setter, modem.py:1235-1239 *)
Definition set_answered_with (n : nat) (b : bool) : M unit :=
  change_call n (with_answered b) ;;;
  do m <- get;
  if c_callback (the_call m n) then tell (EStatus n) ;;; on_status a n else ret tt.
(** Call.hangup, modem.py:1272-1282, and IncomingCall.hangup, 1318-1321 *)
Definition hangup_with (n : nat) : M unit :=
  do m <- get;
  (if c_incoming (the_call m n) then change_call n (with_ringing false) else ret tt) ;;;
  (if c_active (the_call m n) then
     write (lit "ATH") ;;; set_answered_with n false ;;; change_call n (with_active false)
   else ret tt) ;;;
  do m <- get;
  match zget (activeCalls m) (c_id (the_call m n)) with
  | Some _ => modify (fun m => set_activeCalls (zdel (activeCalls m) (c_id (the_call m n))) m)
  | None => ret tt
  end.
(** IncomingCall.answer, modem.py:1308-1316 *)
Definition answer_with (n : nat) : M unit :=
  do m <- get;
  if c_ringing (the_call m n) then
    write (lit "ATA") ;;; change_call n (with_ringing false) ;;; set_answered_with n true
  else ret tt.

(** _handleIncomingCall, modem.py:890-933: the callback is the last thing *)
Definition handleIncomingCall_with (lines : list str) : M unit :=
  match lines with
  | [] => raise IndexError
  | ringLine :: lines =>
      do m <- get;
      do callType <-
        (if crc m then
           match after_space ringLine with
           | Some t => ret (Some t)
           | None =>
               try_except (write (lit "AT+CRC=1") ;;; ret None)
                 (fun e => if is_CommandError e then Some (modify (set_crc false) ;;; ret None) else None)
           end
         else ret None);
      do m <- get;
      let callerNumber :=
        match lines with
        | clipLine :: _ =>
            if clip m then match re_match CLIP_REGEX clipLine with Some w => Some (group 1 w) | None => None end else None
        | [] => None
        end in
      do found <- ring_each (activeCalls m) callerNumber None;
      do n <- (match found with
               | Some n => ret n
               | None =>
                   do m <- get;
                   do c <- lift (new_incoming callerNumber (Z.of_nat (length (activeCalls m)) + 1) callType);
                   add_call c
               end);
      tell (ERing n) ;;;
      on_ring a n
  end.

(** _handleCallAnswered, modem.py:949-964 *)
Definition answered_by_id_with (callId : Z) : M unit :=
  do m <- get;
  match zget (activeCalls m) callId with Some n => set_answered_with n true | None => raise KeyError end.
Definition handleCallAnswered_with (groups : option (list str)) (callId : Z) : M unit :=
  match groups with
  | Some g =>
      match g with
      | _ :: _ :: _ => do id <- int_of g 0; answered_by_id_with id
      | _ =>
          do m <- get;
          match find_call m (fun c => negb (c_answered c) && negb (c_incoming c)) with
          | Some n => set_answered_with n true
          | None => ret tt
          end
      end
  | None => answered_by_id_with callId
  end.
(** _handleCallEnded, modem.py:966-981.  Lines 979-981 look the call up again, twice:
    activeCalls[callId].active = False, del activeCalls[callId]. *)
Definition handleCallEnded_with (groups : option (list str)) (callId : option Z) (filterUnanswered : bool) : M unit :=
  do callId <-
    (match groups with
     | Some (g :: gs) => do id <- int_of (g :: gs) 0; ret (Some id)
     | Some [] =>
         do m <- get;
         match find_call m (fun c => negb (c_incoming c) && (negb filterUnanswered || negb (c_answered c))) with
         | Some n => ret (Some (c_id (the_call m n)))
         | None => ret callId
         end
     | None => ret callId
     end);
  match callId with
  | None => ret tt
  | Some id =>
      if id =? 0 then ret tt
      else
        do m <- get;
        match zget (activeCalls m) id with
        | Some n =>
            set_answered_with n false ;;;
            do m <- get;
            match zget (activeCalls m) id with
            | Some n =>
                change_call n (with_active false) ;;;
                modify (fun m => set_activeCalls (zdel (activeCalls m) id) m)
            | None => raise KeyError
            end
        | None => ret tt
        end
  end.
Definition handleCallRejected_with (groups : option (list str)) (callId : option Z) : M unit := handleCallEnded_with groups callId true.

(** The tables of call status updates, modem.py:253-280 *)
Definition call_updates_with (t : call_table) : list (re * (list str -> M unit)) :=
  let initiated g := handleCallInitiated (Some g) 0 1 in
  let answered g := handleCallAnswered_with (Some g) 0 in
  let ended g := handleCallEnded_with (Some g) None false in
  let rejected g := handleCallRejected_with (Some g) None in
  let d := RGrp (RCls c_digit) in
  match t with
  | TNone => []
  | THuawei =>
      [(RLit (lit "^ORIG:") ;; d ;; RLit (lit ",") ;; d ;; REol, initiated);
       (RLit (lit "^CONN:") ;; d ;; RLit (lit ",") ;; d ;; REol, answered);
       (RLit (lit "^CEND:") ;; d ;; RLit (lit ",") ;; d ;; RLit (lit ",") ;; RGrpPlus c_digit ;; RLit (lit ",") ;; RGrpPlus c_digit ;; REol, ended)]
  | TWavecom =>
      [(RLit (lit "+WIND: 5,") ;; d ;; REol, initiated);
       (RLit (lit "OK") ;; REol, answered);
       (RLit (lit "+WIND: 6,") ;; d ;; REol, ended)]
  | TZte =>
      [(RLit (lit "CONNECT") ;; REol, answered);
       (RLit (lit "HANGUP:") ;; star c_space ;; RGrp (plus c_digit) ;; REol, ended);
       (RLit (lit "OK") ;; REol, rejected)]
  end.

(** __threadedHandleModemNotification, modem.py:857-888 *)
Fixpoint notify_each_with (lines rest : list str) : M unit :=
  match rest with
  | [] => ret tt
  | line :: rest' =>
      if contains line (lit "RING") then handleIncomingCall_with lines
      else if startswith line (lit "+CMTI") then handleSmsReceived_with line
      else if startswith line (lit "+CUSD") then handleUssd lines
      else if startswith line (lit "+CDSI") then handleSmsStatusReport_with line
      else
        do m <- get;
        match try_updates (call_updates_with (callUpdates m)) line with
        | Some h => h
        | None => notify_each_with lines rest'
        end
  end.
Definition handleNotification_with (lines : list str) : M unit := notify_each_with lines lines.
End Application.
