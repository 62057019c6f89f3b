(** Assigning smsTextMode while other threads use the modem for messages.

    Modelled: GsmModem.smsTextMode's setter (modem.py:523-530) and _compileSmsRegexes
    (545-552), and of sendSms (642-650), listStoredSms (779-790, 813-815) and
    readStoredSms (1036-1050, 1060-1062) what depends on the mode.  Any number of threads
    are in these functions at the same time; a step of one of them is one access to an
    attribute of the GsmModem or one command.  The modem is connected (alive).

    Simplified: the two halves of entering a message (AT+CMGS=... and what follows the
    prompt) are one step, because the modem has settled at the first half how it takes
    the second; commands that do not depend on the mode (AT+CPMS) are left out; every
    command is answered, with OK or an error. *)
From Verif Require Import Base.

(** how a call ends: it returns, CommandError, or AttributeError (None has no match) *)
Inductive ending := Fine | Refused | NoneMatch.

(** where a thread is; modes are booleans, [true] for text mode *)
Inductive place :=
| STest (new : bool)                  (* 526: if textMode != self._smsTextMode *)
| SCommand (new : bool)               (* 528: AT+CMGF=... *)
| SStore (new : bool)                 (* 529: self._smsTextMode = textMode *)
| SMode                               (* 547: if self._smsTextMode *)
| SText                               (* 548: if self.CMGR_SM_DELIVER_REGEX_TEXT == None *)
| SText1                              (* 549 *)
| SText2                              (* 550 *)
| SPdu                                (* 551: elif self.CMGR_REGEX_PDU == None *)
| SPdu1                               (* 552 *)
| ULook (more : nat)                  (* 642, 782: if self._smsTextMode; in PDU mode [more] further parts may follow *)
| UCommand (form : bool) (more : nat) (* 643, 648; 790, 815: a command as for mode [form] *)
| RCommand                            (* 1036: AT+CMGR=... *)
| RLook (answer : bool)               (* 1038: if self._smsTextMode; the response is as for mode [answer] *)
| RText (answer : bool)               (* 1039: self.CMGR_SM_DELIVER_REGEX_TEXT.match(...) *)
| RText2 (answer : bool)              (* 1046: self.CMGR_SM_REPORT_REGEXT_TEXT.match(...) *)
| RPdu (answer : bool)                (* 1060: self.CMGR_REGEX_PDU.match(...) *)
| Ended (e : ending).

Record mstate := mkM {
  attr : bool;     (* self._smsTextMode *)
  mode : bool;     (* the mode the modem is in *)
  deliver_re : bool; (* is self.CMGR_SM_DELIVER_REGEX_TEXT compiled? *)
  report_re : bool;  (* is self.CMGR_SM_REPORT_REGEXT_TEXT? *)
  pdu_re : bool;     (* is self.CMGR_REGEX_PDU? *)
  threads : list place }.

(** what a step shows *)
Inductive mlabel :=
| Quiet
| Switch (new ok : bool)         (* AT+CMGF, and whether the modem accepted it *)
| Used (form actual : bool)      (* a command as for mode [form], the modem being in mode [actual] *)
| Taken (answer form : bool) (e : ending). (* a response as for mode [answer] was taken as for mode [form], and how that ended *)

Fixpoint set_at {A} (n : nat) (x : A) (l : list A) : list A :=
  match l, n with
  | [], _ => []
  | _ :: t, O => x :: t
  | h :: t, S m => h :: set_at m x t
  end.

(** what of the shared state changes, where the thread goes, and what is seen.  [ok]:
    the modem answers OK; [report]: the message read is a status report. *)
Definition mstep1 (s : mstate) (p : place) (ok report : bool) : option (mstate * place * mlabel) :=
  let stay p' l := Some (s, p', l) in
  let 'mkM a m d r u ts := s in
  match p with
  | STest new => stay (if Bool.eqb new a then Ended Fine else SCommand new) Quiet
  | SCommand new =>
      if ok then Some (mkM a new d r u ts, SStore new, Switch new true)
      else stay (Ended Refused) (Switch new false)
  | SStore new => Some (mkM new m d r u ts, SMode, Quiet)
  | SMode => stay (if a then SText else SPdu) Quiet
  | SText => stay (if d then Ended Fine else SText1) Quiet
  | SText1 => Some (mkM a m true r u ts, SText2, Quiet)
  | SText2 => Some (mkM a m d true u ts, Ended Fine, Quiet)
  | SPdu => stay (if u then Ended Fine else SPdu1) Quiet
  | SPdu1 => Some (mkM a m d r true ts, Ended Fine, Quiet)
  | ULook more => stay (UCommand a (if a then O else more)) Quiet
  | UCommand form more =>
      stay (if ok then match more with O => Ended Fine | S k => UCommand form k end else Ended Refused) (Used form m)
  | RCommand => stay (if ok then RLook m else Ended Refused) Quiet
  | RLook answer => stay (if a then RText answer else RPdu answer) Quiet
  | RText answer =>
      if d then if answer && negb report then stay (Ended Fine) (Taken answer true Fine) else stay (RText2 answer) Quiet
      else stay (Ended NoneMatch) (Taken answer true NoneMatch)
  | RText2 answer =>
      let e := if r then if answer then Fine else Refused else NoneMatch in stay (Ended e) (Taken answer true e)
  | RPdu answer =>
      let e := if u then if answer then Refused else Fine else NoneMatch in stay (Ended e) (Taken answer false e)
  | Ended _ => None
  end.
(** a step of thread [i] *)
Inductive mstep (s : mstate) (i : nat) (l : mlabel) (s' : mstate) : Prop :=
| mstep_intro p ok report s1 p' : nth_error (threads s) i = Some p -> mstep1 s p ok report = Some (s1, p', l) ->
    s' = mkM (attr s1) (mode s1) (deliver_re s1) (report_re s1) (pdu_re s1) (set_at i p' (threads s)) -> mstep s i l s'.

(** an execution: the threads take turns in any order; the states passed through
    satisfy [P] *)
Inductive mrun (P : mstate -> Prop) : mstate -> list (nat * mlabel) -> mstate -> Prop :=
| mrun_nil s : P s -> mrun P s [] s
| mrun_step s i l s1 ls s' : P s -> mstep s i l s1 -> mrun P s1 ls s' -> mrun P s ((i, l) :: ls) s'.
