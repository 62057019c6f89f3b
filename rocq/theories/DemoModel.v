(** Model of the example programs in examples/: their callbacks and loops.  What they
    print is left out.  [env] is what other threads do to the modem object while the
    program sleeps; the pause itself is an event. *)
From Verif Require Import Base RegexModel UtilModel ModemCore SmsModel CallModel UssdModel NotifyModel CallbackModel NetworkModel.

(** try: c finally: f *)
Definition finally {A} (c : M A) (f : M unit) : M A := fun w =>
  match c w with
  | Done r w1 => match f w1 with Done (Ok _) w2 => Done r w2 | Done (Err e) w2 => Done (Err e) w2 | Stuck w2 => Stuck w2 end
  | Stuck w1 => Stuck w1
  end.
Definition is_Interrupted (e : exn) : bool := match e with InterruptedException _ => true | _ => false end.
Definition sleeping (tenths : Z) (env : M unit) : M unit := tell (ESleep tenths) ;;; env.

(** ** sms_handler_demo.py *)
(** the text of line 23 *)
Definition thank_you (text : str) : str :=
  lit "SMS received: """ ++ firstn 20 text ++ (if 20 <? Z.of_nat (length text) then lit "..." else []) ++ lit """".
(** handleSms, lines 20-24.  A StatusReport has no attribute time (line 21). *)
Definition demo_sms (s : stored_sms) : M unit :=
  match s with
  | Received _ _ _ text _ => reply s (thank_you text) ;;; ret tt
  | Report _ _ _ _ _ _ => raise AttributeError
  end.
Definition sms_demo : client := mk_client demo_sms (fun _ => ret tt) (fun _ => ret tt) (fun _ => ret tt).

(** ** incoming_call_demo.py *)
Definition demo_tones : str := lit "9515999955951".
(** handleIncomingCall, lines 23-46 *)
Definition demo_incoming (env : M unit) (n : nat) : M unit :=
  do m <- get;
  if c_ringCount (the_call m n) =? 1 then ret tt
  else if 2 <=? c_ringCount (the_call m n) then
    if dtmfSupport m then
      answer n ;;;
      sleeping 20 env ;;;
      finally (try_except (sendDtmfTone n demo_tones) (fun e => if is_Interrupted e then Some (ret tt) else None))
        (do m <- get; if c_answered (the_call m n) then hangup n else ret tt)
    else hangup n
  else ret tt.
Definition call_demo (env : M unit) : client := mk_client (fun _ => ret tt) (fun _ => ret tt) (demo_incoming env) (fun _ => ret tt).

(** ** dial_callback_demo.py *)
(** waitForCallback = False (lines 50, 54): recorded as a pause of no length; the
    program makes no such pause *)
Definition stop_waiting : M unit := tell (ESleep 0).
(** callStatusCallback, lines 27-54, with hangup() calling [inner] *)
Definition demo_status (env : M unit) (inner : client) (n : nat) : M unit :=
  do m <- get;
  if c_answered (the_call m n) then
    sleeping 30 env ;;;
    finally
      (try_except (do m <- get; if c_active (the_call m n) then sendDtmfTone n demo_tones else ret tt)
         (fun e => if is_Interrupted e || is_CommandError e then Some (ret tt) else None))
      (do m <- get; (if c_active (the_call m n) then hangup_with inner n else ret tt) ;;; stop_waiting)
  else stop_waiting.
(** the callback is the one of the call, also in hangup(); [e] is raised when callbacks
    are nested [k] deep *)
Fixpoint dial_demo (env : M unit) (e : exn) (k : nat) : client :=
  mk_client (fun _ => ret tt) (fun _ => ret tt) (fun _ => ret tt)
    (match k with O => fun _ => raise e | S k' => demo_status env (dial_demo env e k') end).

(** ** dial_polling_demo.py *)
(** the loop of lines 38-63; [envs] is what happens in the pauses, None when it is still
    sleeping after that; the result is wasAnswered *)
Fixpoint demo_loop (envs : list (M unit)) (n : nat) (wasAnswered : bool) : M (option bool) :=
  do m <- get;
  if c_active (the_call m n) then
    match envs with
    | [] => ret None
    | env :: envs =>
        if c_answered (the_call m n) then
          sleeping 30 env ;;;
          finally
            (try_except (do m <- get; if c_active (the_call m n) then sendDtmfTone n demo_tones else ret tt)
               (fun e => if is_Interrupted e || is_CommandError e then Some (ret tt) else None))
            (do m <- get; if c_active (the_call m n) then hangup n else ret tt) ;;;
          demo_loop envs n true
        else sleeping 5 env ;;; demo_loop envs n wasAnswered
    end
  else ret (Some wasAnswered).

(** ** ussd_demo.py *)
(** lines 29-37: sendUssd, cancel if the session is open; the two parts of sendUssd, and
    what happens while it waits.  The answer can be None only if another thread changes
    the attribute (C55); then line 30 fails. *)
Definition demo_ussd (env : M unit) (ussdString : str) : M unit :=
  do first <- sendUssd_start ussdString;
  do u <- (match first with Some u => ret (Some u) | None => env ;;; sendUssd_finish end);
  match u with
  | Some u => if u_active u then ussd_cancel u else ret tt
  | None => raise AttributeError
  end.
