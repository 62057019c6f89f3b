(** Model of gsmmodem/modem.py: polling the status of outgoing calls. *)
From Verif Require Export CallModel.

(** _pollCallStatusRegex, modem.py:286: '\+CLCC:\s+(\d+),(\d),(\d),(\d),([^,]),Q([^,]* )Q,(\d+)$' *)
Definition CLCC_REGEX : re :=
  let d := RGrp (RCls c_digit) in
  RLit (lit "+CLCC:") ;; plus c_space ;; RGrp (plus c_digit) ;; RLit (lit ",") ;; d ;; RLit (lit ",") ;; d ;; RLit (lit ",") ;; d ;; RLit (lit ",") ;;
  RGrp (RCls (c_not 44)) ;; RLit (lit ",""") ;; RGrp (star (c_not 44)) ;; RLit (lit """,") ;; RGrp (plus c_digit) ;; REol.

(** the methods of self that the poller calls when the state of the call has changed *)
Record poll_handlers := mk_poll_handlers {
  on_initiated : Z -> Z -> M unit;
  on_answered : Z -> M unit;
  on_ended : option Z -> M unit;
  on_rejected : option Z -> M unit }.

(** _pollCallStatus, modem.py:1159-1204.  [timeLeft] in half seconds.  [alive_at]: for
    each round whether self.alive is still true (the end of the list: it is).
    [fuel]: every round takes a reply. *)
Fixpoint poll_loop (h : poll_handlers) (fuel : nat) (alive_at : list bool) (expectedState : Z) (callId : option Z) (timeLeft : Z) : M unit :=
  match fuel with
  | O => raise OutOfFuel
  | S fuel' =>
      let (alive_now, alive_at') := match alive_at with b :: l => (b, l) | [] => (true, []) end in
      if (alive_now : bool) && (0 <? timeLeft) then
        tell (ESleep 5) ;;;
        let timeLeft := if expectedState =? 0 then timeLeft - 1 else timeLeft in
        do clcc <- try_except (do ls <- write (lit "AT+CLCC"); do l <- first_line ls; ret (re_match CLCC_REGEX l))
          (fun e => match e with TimeoutException _ => Some (ret None) | _ => None end);
        match clcc with
        | Some w =>
            do direction <- lift (py_int 10 (group 2 w));
            if direction =? 0 then
              do stat <- lift (py_int 10 (group 3 w));
              if (expectedState =? 0) then
                if (stat =? 2) || (stat =? 3) then
                  do callId <- lift (py_int 10 (group 1 w));
                  do callType <- lift (py_int 10 (group 4 w));
                  on_initiated h callId callType ;;;
                  poll_loop h fuel' alive_at' 1 (Some callId) timeLeft
                else poll_loop h fuel' alive_at' expectedState callId timeLeft
              else if expectedState =? 1 then
                if stat =? 0 then
                  do callId <- lift (py_int 10 (group 1 w));
                  on_answered h callId ;;;
                  poll_loop h fuel' alive_at' 2 (Some callId) timeLeft
                else poll_loop h fuel' alive_at' expectedState callId timeLeft
              else poll_loop h fuel' alive_at' expectedState callId timeLeft
            else poll_loop h fuel' alive_at' expectedState callId timeLeft
        | None =>
            if expectedState =? 2 then
              on_ended h callId ;;; (if timeLeft <=? 0 then raise (TimeoutException None) else ret tt)
            else if expectedState =? 1 then
              on_rejected h callId ;;; (if timeLeft <=? 0 then raise (TimeoutException None) else ret tt)
            else poll_loop h fuel' alive_at' expectedState callId timeLeft
        end
      else if timeLeft <=? 0 then raise (TimeoutException None) else ret tt
  end.
(** the handlers of GsmModem *)
Definition modem_handlers : poll_handlers :=
  mk_poll_handlers (fun id ty => handleCallInitiated None id ty) (fun id => handleCallAnswered None id)
    (fun id => handleCallEnded None id false) (fun id => handleCallRejected None id).
(** as started by dial() (modem.py:731-733): the timeout in seconds, 0 or None meaning 999999 *)
Definition pollCallStatus (alive_at : list bool) (timeout : option Z) : M unit := fun w =>
  let secs := match timeout with Some t => if t =? 0 then 999999 else t | None => 999999 end in
  poll_loop modem_handlers (S (length (script w))) alive_at 0 None (2 * secs) w.
