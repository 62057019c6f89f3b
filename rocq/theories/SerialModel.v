(** Model of gsmmodem/serial_comms.py.

    The read thread and any number of threads calling write() run in arbitrary
    interleaving; a step is one access to an attribute that the threads share
    (Python's global lock makes single attribute loads and stores atomic).

    Here the read loop's [alive] is always true and the port does not fail: connect,
    close and errors of the port are added in LifeModel.  Not modelled: logging.  The re-entrancy of the lock never matters: write() calls
    nothing that calls write(). *)
From Verif Require Export Base RegexModel.

(** RX_EOL_SEQ, line 19 *)
Definition RX_EOL_SEQ : str := [13; 10].
(** RESPONSE_TERM, line 21: '^OK|ERROR|(\+CM[ES] ERROR: \d+)|(COMMAND NOT SUPPORT)$' *)
Definition RESPONSE_TERM : re :=
  RAlt (RLit (lit "OK")) (RAlt (RLit (lit "ERROR"))
    (RAlt (RGrp (RLit (lit "+CM") ;; RCls (fun c => (c =? 69) || (c =? 83)) ;; RLit (lit " ERROR: ") ;; plus c_digit))
          (RGrp (RLit (lit "COMMAND NOT SUPPORT")) ;; REol))).
Definition is_term (line : str) : bool := match re_match RESPONSE_TERM line with Some _ => true | None => false end.

(** [buf[-len(suf):] == suf] for lists *)
Definition ends_with (buf suf : str) : bool := str_eqb (skipn (length buf - length suf) buf) suf.

(** ** _readLoop, lines 92-108, on its own: one iteration with a fixed value of
    _expectResponseTermSeq ([None]: None or False).  [data]: the result of
    serial.read(1), [None] for a time-out.  Result: the new rxBuffer and the call
    of _handleLineRead (line, checkForResponseTerm), if any. *)
Definition rx_step (expect : option str) (buf : str) (data : option Z) : str * option (str * bool) :=
  match data with
  | None => (buf, None)
  | Some c =>
      let buf := buf ++ [c] in
      if ends_with buf RX_EOL_SEQ then
        let line := firstn (length buf - length RX_EOL_SEQ) buf in
        ([], match line with [] => None | _ => Some (line, true) end)
      else match expect with
           | Some e => if ends_with buf e then ([], Some (buf, false)) else (buf, None)
           | None => (buf, None)
           end
  end.
Fixpoint rx_run (expect : option str) (buf : str) (input : list (option Z)) : list (str * bool) * str :=
  match input with
  | [] => ([], buf)
  | d :: input' =>
      let '(buf', out) := rx_step expect buf d in
      let '(calls, final) := rx_run expect buf' input' in
      (match out with Some call => call :: calls | None => calls end, final)
  end.

(** ** The threads *)

(** the arguments of a write() call *)
Record wop := mk_wop { w_data : str; w_wait : bool; w_expected : option str }.

(** Program counters of a writing thread (write, lines 120-141). *)
Inductive wpc :=
| WIdle
| WCheck (op : wop)                  (* 122, lock held *)
| WSetResp (op : wop)                (* 125 *)
| WSetEvt (op : wop)                 (* 126 *)
| WSend (op : wop)                   (* 127 *)
| WLoad                              (* 128: self._responseEvent *)
| WWait (e : nat)                    (* 128: .wait(timeout) *)
| WClrEvt (ok : bool)                (* 129, 133; ok: the wait returned True *)
| WClrExp (ok : bool)                (* 130, 134 *)
| WRet (ok : bool)                   (* 131, 135-139 *)
| WSendNW (op : wop)                 (* 141 *)
| WRel                               (* leaving the with statement *)
| WFail.                             (* the call died with AttributeError *)

(** Program counters of the read thread (_readLoop 92-108, _handleLineRead 60-78).
    [buf] is rxBuffer. *)
Inductive rpc :=
| RIdle (buf : str)                          (* 93 *)
| RExp1 (buf : str)                          (* 104: load _expectResponseTermSeq *)
| RExp2 (buf : str)                          (* 105: load it again, for len() *)
| RExp3 (buf : str) (n : nat)                (* 105: load it again, for == *)
| RHave (line : str) (chk : bool)            (* 62: first load of _responseEvent *)
| RIsSet (line : str) (chk : bool)           (* 62: second load, is_set() *)
| RResp (line : str) (chk : bool)            (* 64: load _response *)
| RApp (line : str) (chk : bool) (r : nat)   (* 64: append *)
| RTerm (line : str) (chk : bool)            (* 65 *)
| RSet (line : str) (chk : bool)             (* 69: load _responseEvent, set() *)
| RNote (line : str)                         (* 72 *)
| RNote2                                     (* 73-78 *)
| RDead (e : exn) (lost : option str).       (* the thread died with this exception *)

Record sstate := mk_s {
  lock : option nat;                 (* owner of _txLock *)
  evt : option nat;                  (* _responseEvent: event object *)
  is_set : nat -> bool;              (* flags of the event objects *)
  expect : option str;               (* _expectResponseTermSeq *)
  resp : option nat;                 (* _response: list object *)
  heap : nat -> list str;            (* contents of the list objects *)
  fresh : nat;                       (* next unused object *)
  notif : list str;                  (* _notification *)
  reader : rpc;
  writer : nat -> wpc }.

(** __init__, lines 31-43 *)
Definition s_init : sstate :=
  mk_s None None (fun _ => false) None None (fun _ => []) 0 [] (RIdle []) (fun _ => WIdle).

(** What can be observed. *)
Inductive label :=
| LTau
| LChar (c : Z)                             (* character read *)
| LLine (line : str) (chk : bool)           (* _handleLineRead called *)
| LAppend (line : str) (chk : bool)         (* line added to a response *)
| LNotify (line : str)                      (* line added to the notification *)
| LCallback (lines : list str)              (* notifyCallback(lines) *)
| LDied (e : exn)                           (* the read thread died *)
| LStart (i : nat)                          (* write(): response event created *)
| LSend (i : nat) (data : str) (wait : bool) (* serial.write *)
| LReturn (i : nat) (lines : list str)      (* write() returns the response *)
| LTimeout (i : nat) (lines : list str)     (* write() raises TimeoutException *)
| LCrashW (i : nat).                        (* write() raises AttributeError *)

Definition upd {A} (f : nat -> A) (n : nat) (x : A) : nat -> A := fun m => if (m =? n)%nat then x else f m.

Definition set_reader (s : sstate) (r : rpc) : sstate :=
  mk_s (lock s) (evt s) (is_set s) (expect s) (resp s) (heap s) (fresh s) (notif s) r (writer s).
Definition set_writer (s : sstate) (i : nat) (w : wpc) : sstate :=
  mk_s (lock s) (evt s) (is_set s) (expect s) (resp s) (heap s) (fresh s) (notif s) (reader s) (upd (writer s) i w).

(** What the environment supplies to the read thread: the result of serial.read(1)
    and of serial.inWaiting() == 0; ignored by the other steps. *)
Record rin := mk_rin { in_char : option Z; in_empty : bool }.

Definition read_step (s : sstate) (i : rin) : option (sstate * label) :=
  match reader s with
  | RIdle buf =>
      match in_char i with
      | None => Some (s, LTau)
      | Some c =>
          let buf := buf ++ [c] in
          if ends_with buf RX_EOL_SEQ then
            Some (set_reader s (match firstn (length buf - length RX_EOL_SEQ) buf with
                                | [] => RIdle []
                                | line => RHave line true
                                end), LChar c)
          else Some (set_reader s (RExp1 buf), LChar c)
      end
  | RExp1 buf =>
      match expect s with
      | None => Some (set_reader s (RIdle buf), LTau)
      | Some _ => Some (set_reader s (RExp2 buf), LTau)
      end
  | RExp2 buf =>
      match expect s with
      | None => Some (set_reader s (RDead TypeError None), LDied TypeError)      (* len(False) *)
      | Some e => Some (set_reader s (RExp3 buf (length e)), LTau)
      end
  | RExp3 buf n =>
      match expect s with
      | None => Some (set_reader s (RIdle buf), LTau)                            (* a list is not == False *)
      | Some e => if str_eqb (skipn (length buf - n) buf) e
                  then Some (set_reader s (RHave buf false), LTau)
                  else Some (set_reader s (RIdle buf), LTau)
      end
  | RHave line chk =>
      match evt s with
      | None => Some (set_reader s (RNote line), LLine line chk)
      | Some _ => Some (set_reader s (RIsSet line chk), LLine line chk)
      end
  | RIsSet line chk =>
      match evt s with
      | None => Some (set_reader s (RDead AttributeError (Some line)), LDied AttributeError)
      | Some e => if is_set s e then Some (set_reader s (RNote line), LTau)
                  else Some (set_reader s (RResp line chk), LTau)
      end
  | RResp line chk =>
      match resp s with
      | None => Some (set_reader s (RDead AttributeError (Some line)), LDied AttributeError)
      | Some r => Some (set_reader s (RApp line chk r), LTau)
      end
  | RApp line chk r =>
      Some (mk_s (lock s) (evt s) (is_set s) (expect s) (resp s) (upd (heap s) r (heap s r ++ [line])) (fresh s)
                 (notif s) (RTerm line chk) (writer s), LAppend line chk)
  | RTerm line chk =>
      if negb chk || is_term line then Some (set_reader s (RSet line chk), LTau)
      else Some (set_reader s (RIdle []), LTau)
  | RSet line chk =>
      match evt s with
      | None => Some (set_reader s (RDead AttributeError None), LDied AttributeError)
      | Some e => Some (mk_s (lock s) (evt s) (upd (is_set s) e true) (expect s) (resp s) (heap s) (fresh s)
                             (notif s) (RIdle []) (writer s), LTau)
      end
  | RNote line =>
      Some (mk_s (lock s) (evt s) (is_set s) (expect s) (resp s) (heap s) (fresh s)
                 (notif s ++ [line]) RNote2 (writer s), LNotify line)
  | RNote2 =>
      if in_empty i then
        Some (mk_s (lock s) (evt s) (is_set s) (expect s) (resp s) (heap s) (fresh s)
                   [] (RIdle []) (writer s), LCallback (notif s))
      else Some (set_reader s (RIdle []), LTau)
  | RDead _ _ => None
  end.

(** What the environment supplies to a writing thread: the call it makes next, and
    whether the wait times out. *)
Record win := mk_win { in_op : wop; in_timeout : bool }.

Definition write_step (s : sstate) (i : nat) (w : win) : option (sstate * label) :=
  match writer s i with
  | WIdle =>
      match lock s with
      | Some _ => None
      | None => Some (mk_s (Some i) (evt s) (is_set s) (expect s) (resp s) (heap s) (fresh s) (notif s) (reader s)
                           (upd (writer s) i (WCheck (in_op w))), LTau)
      end
  | WCheck op =>
      if w_wait op then
        match w_expected op with
        | Some (c :: e) =>
            Some (mk_s (lock s) (evt s) (is_set s) (Some (c :: e)) (resp s) (heap s) (fresh s) (notif s) (reader s)
                       (upd (writer s) i (WSetResp op)), LTau)
        | _ => Some (set_writer s i (WSetResp op), LTau)
        end
      else Some (set_writer s i (WSendNW op), LTau)
  | WSetResp op =>
      Some (mk_s (lock s) (evt s) (is_set s) (expect s) (Some (fresh s)) (upd (heap s) (fresh s) []) (S (fresh s))
                 (notif s) (reader s) (upd (writer s) i (WSetEvt op)), LTau)
  | WSetEvt op =>
      Some (mk_s (lock s) (Some (fresh s)) (upd (is_set s) (fresh s) false) (expect s) (resp s) (heap s) (S (fresh s))
                 (notif s) (reader s) (upd (writer s) i (WSend op)), LStart i)
  | WSend op => Some (set_writer s i WLoad, LSend i (w_data op) true)
  | WLoad =>
      match evt s with
      | Some e => Some (set_writer s i (WWait e), LTau)
      | None => Some (set_writer s i WFail, LCrashW i)
      end
  | WWait e =>
      if is_set s e then Some (set_writer s i (WClrEvt true), LTau)
      else if in_timeout w then Some (set_writer s i (WClrEvt false), LTau)
      else None
  | WClrEvt ok =>
      Some (mk_s (lock s) None (is_set s) (expect s) (resp s) (heap s) (fresh s) (notif s) (reader s)
                 (upd (writer s) i (WClrExp ok)), LTau)
  | WClrExp ok =>
      Some (mk_s (lock s) (evt s) (is_set s) None (resp s) (heap s) (fresh s) (notif s) (reader s)
                 (upd (writer s) i (WRet ok)), LTau)
  | WRet ok =>
      match resp s with
      | Some r => Some (set_writer s i WRel, if ok then LReturn i (heap s r) else LTimeout i (heap s r))
      | None => Some (set_writer s i WFail, LCrashW i)
      end
  | WSendNW op => Some (set_writer s i WRel, LSend i (w_data op) false)
  | WRel =>
      Some (mk_s None (evt s) (is_set s) (expect s) (resp s) (heap s) (fresh s) (notif s) (reader s)
                 (upd (writer s) i WIdle), LTau)
  | WFail => None
  end.

(** A schedule names the thread that moves next and supplies its inputs. *)
Inductive action := ARead (i : rin) | AWrite (i : nat) (w : win).
Definition act (s : sstate) (a : action) : option (sstate * label) :=
  match a with ARead i => read_step s i | AWrite i w => write_step s i w end.

(** [run s tr s']: a finite execution with this sequence of steps *)
Inductive run : sstate -> list (action * label) -> sstate -> Prop :=
| run_nil s : run s [] s
| run_snoc s tr s' a l s'' : run s tr s' -> act s' a = Some (s'', l) -> run s (tr ++ [(a, l)]) s''.
