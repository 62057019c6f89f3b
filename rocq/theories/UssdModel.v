(** Model of gsmmodem/modem.py: USSD. *)
From Verif Require Export Base RegexModel UtilModel ModemCore.

(** CUSD_REGEX, modem.py:129: '\+CUSD:\s*(\d),Q(.*?)Q,(\d+)' with DOTALL *)
Definition CUSD_REGEX : re :=
  RLit (lit "+CUSD:") ;; star c_space ;; RGrp (RCls c_digit) ;; RLit (lit ",""") ;; RGrp (lazy_star c_all) ;; RLit (lit """,") ;; RGrp (plus c_digit).

(** the loop over several matches, modem.py:1139-1149 *)
Fixpoint cusd_each (ms : list way) (message : option str) (sessionActive : bool) : ussd :=
  match ms with
  | [] => mk_ussd sessionActive message
  | m :: ms' =>
      if str_eqb (group 1 m) (lit "2") then cusd_each ms' message false
      else cusd_each ms' (Some (group 2 m)) (if sessionActive && negb (str_eqb (group 1 m) (lit "1")) then false else sessionActive)
  end.
(** _parseCusdResponse, modem.py:1122-1153 *)
Definition parseCusdResponse (lines : list str) : res ussd :=
  let single (m : way) := mk_ussd (str_eqb (group 1 m) (lit "1")) (Some (group 2 m)) in
  match lines with
  | _ :: _ :: _ =>
      match finditer CUSD_REGEX (join [13; 10] lines) with
      | [] => Err IndexError
      | [m] => Ok (single m)
      | ms => Ok (cusd_each ms None true)
      end
  | [l] => match re_match CUSD_REGEX l with Some m => Ok (single m) | None => Err AttributeError end
  | [] => Err IndexError
  end.

(** _handleUssd, modem.py:1114-1120 *)
Definition handleUssd (lines : list str) : M unit :=
  do m <- get;
  match ussdEvent m with
  | Some _ =>
      do u <- lift (parseCusdResponse lines);
      modify (set_ussdResponse (Some u)) ;;; modify (set_ussdEvent (Some true))
  | None => ret tt
  end.

(** sendUssd, modem.py:668-699, up to the wait in line 694: the response when it came
    with the acknowledgement, else None *)
Definition sendUssd_start (ussdString : str) : M (option ussd) :=
  modify (set_ussdEvent (Some false)) ;;;
  do cusdResponse <- try_except (write (lit "AT+CUSD=1,""" ++ ussdString ++ lit """,15"))
    (fun e => Some (modify (set_ussdEvent None) ;;; raise e));
  match cusdResponse with
  | _ :: _ :: _ =>
      match lineStartingWith (lit "+CUSD") cusdResponse with
      | Some _ => modify (set_ussdEvent None) ;;; do u <- lift (parseCusdResponse cusdResponse); ret (Some u)
      | None => ret None
      end
  | _ => ret None
  end.
(** from the end of the wait (694-699): the event has been set by then, or the wait
    has timed out *)
Definition sendUssd_finish : M (option ussd) :=
  do m <- get;
  match ussdEvent m with
  | Some true => modify (set_ussdEvent None) ;;; ret (ussdResponse m)
  | Some false => modify (set_ussdEvent None) ;;; raise (TimeoutException None)
  | None => raise AttributeError
  end.
(** Ussd.reply (up to the wait) and Ussd.cancel, modem.py:1336-1354 *)
Definition ussd_reply (u : ussd) (message : str) : M (option ussd) :=
  if u_active u then sendUssd_start message else raise InvalidStateException.
Definition ussd_cancel (u : ussd) : M unit :=
  if u_active u then write (lit "AT+CUSD=2") ;;; ret tt else ret tt.
