(** Specification vocabulary for callbacks of the application. *)
From Verif Require Import Base ModemCore ModemSpec MonadProofs SendSpec TrackSpec CoverageSpec SmsModel StoreSpec ListSpec CallModel NotifyModel PollSpec BookSpec CallbackModel.

(** the moment at which a callback is called *)
Definition calling (e : event) (w : world) : world := mk_world (dev w) (script w) (trace w ++ [e]).
(** it does not return normally: it raises an exception, or still runs *)
Definition abrupt (o : out unit) : Prop := forall w, o <> Done (Ok tt) w.
(** attributes the same, but for the time to wait between commands *)
Definition same_but_wait (m m' : modem) : Prop := exists v, m' = set_writeWait v m.

(** ** Messages *)
(** Messages passed to a callback [f] one after the other, until it fails: [lost] are
    the ones that are not passed then. *)
Inductive passes (f : stored_sms -> M unit) : list stored_sms -> world -> list stored_sms -> out unit -> Prop :=
| ps_all w : passes f [] w [] (Done (Ok tt) w)
| ps_next s l w w1 lost o : f s (calling (ESms s) w) = Done (Ok tt) w1 -> passes f l w1 lost o -> passes f (s :: l) w lost o
| ps_fails s l w o : f s (calling (ESms s) w) = o -> abrupt o -> passes f (s :: l) w l o.
(** A listing of the messages with a status, all of them deleted. *)
Definition listed (st : Z) (es : list (Z * stored_sms)) (w w1 : world) : Prop :=
  exists p answer e1 e2, status_param (smsTextMode (dev w)) st p /\ exchange (lit "AT+CMGL=" ++ p) [13] e1 (Ok answer) /\
    taken (smsTextMode (dev w)) answer es /\ cleared st es e2 /\ trace w1 = trace w ++ e1 ++ e2 /\ same_but_wait (dev w) (dev w1).
(** it did not come to that: listStoredSms itself raised an exception, or still runs *)
Definition not_listed (st : Z) (w : world) (o : out unit) : Prop :=
  match listStoredSms st None true w with
  | Done (Ok _) _ => False
  | Done (Err e) w1 => o = Done (Err e) w1
  | Stuck w1 => o = Stuck w1
  end.
(** One status after the other.  [lost]: messages that were deleted and not passed,
    because of a callback. *)
Inductive processes (f : stored_sms -> M unit) : list Z -> world -> list stored_sms -> out unit -> Prop :=
| pc_end w : processes f [] w [] (Done (Ok tt) w)
| pc_round st sts es w w1 w2 lost o : listed st es w w1 -> passes f (map snd es) w1 [] (Done (Ok tt) w2) -> processes f sts w2 lost o ->
    processes f (st :: sts) w lost o
| pc_fails st sts es w w1 lost o : listed st es w w1 -> passes f (map snd es) w1 lost o -> abrupt o -> processes f (st :: sts) w lost o
| pc_unlisted st sts w o evs : not_listed st w o -> trace (last_of o) = trace w ++ evs -> passed evs = [] -> abrupt o -> processes f (st :: sts) w [] o.
(** the reports passed to the callback *)
Definition reported_to (tr : list event) : list stored_sms := flat_map (fun e => match e with EReport s => [s] | _ => [] end) tr.

(** ** Calls *)
(** with the callbacks of the application *)
Definition handles_report_with (a : client) (r : report) : M unit :=
  match r with
  | Initiated id ty => handleCallInitiated None id ty
  | Answered id => handleCallAnswered_with a None id
  | CallEnded id => handleCallEnded_with a None id false
  | Rejected id => handleCallRejected_with a None id
  end.
(** answered or not, set *)
Definition now_flagged (b : bool) (c : call) : call :=
  mk_call (c_id c) (c_incoming c) (c_type c) (c_number c) (c_callback c) b (c_active c) (c_ringing c) (c_ringCount c).
Definition now_inactive (c : call) : call :=
  mk_call (c_id c) (c_incoming c) (c_type c) (c_number c) (c_callback c) (c_answered c) false (c_ringing c) (c_ringCount c).
(** The status callback of a call is called: the call's flag has been set, nothing else
    has changed. *)
Definition flagged (n : nat) (v : bool) (w w1 : world) : Prop :=
  exists calls, at_call n (now_flagged v) (callObjs (dev w)) calls /\ dev w1 = set_callObjs calls (dev w) /\ script w1 = script w /\ trace w1 = trace w ++ [EStatus n].
(** What is done when the callback for the end of call [id] has returned: the call that
    is under that id in the table then is made inactive, and leaves the table. *)
Inductive closes (id : Z) (w : world) : out unit -> Prop :=
| cl_call n calls table w' : In (id, n) (activeCalls (dev w)) -> at_call n now_inactive (callObjs (dev w)) calls -> without id (activeCalls (dev w)) table ->
    dev w' = set_activeCalls table (set_callObjs calls (dev w)) -> script w' = script w -> trace w' = trace w -> closes id w (Done (Ok tt) w')
| cl_gone : ~ In id (map fst (activeCalls (dev w))) -> closes id w (Done (Err KeyError) w).

(** ** Callbacks that use the modem *)
(** A program of the application that uses calls only through their methods: those of
    [a] are the callbacks that run meanwhile.  What it does with the modem apart from
    calls is arbitrary. *)
Definition leaves_calls {A} (c : M A) : Prop := forall w, callObjs (dev (last_of (c w))) = callObjs (dev w) /\ activeCalls (dev (last_of (c w))) = activeCalls (dev w).
Inductive uses (a : client) : forall A, M A -> Prop :=
| us_other A (c : M A) : leaves_calls c -> uses a A c
| us_seq A B (c : M A) (k : A -> M B) : uses a A c -> (forall x, uses a B (k x)) -> uses a B (mbind c k)
| us_try A (c : M A) h : uses a A c -> (forall e k, h e = Some k -> uses a A k) -> uses a A (try_except c h)
| us_dial number cb : uses a (option nat) (dial_start number cb)
| us_dial_end number cb : uses a nat (dial_finish number cb)
| us_answer n : uses a unit (answer_with a n)
| us_hangup n : uses a unit (hangup_with a n)
| us_notification lines : uses a unit (handleNotification_with a lines)
| us_report r : uses a unit (handles_report_with a r)
| us_process b : uses a unit (processStoredSms_with a b).
(** Callbacks nested in callbacks: those of [a'] run inside those of [a].  At the
    innermost, any exception (such as RecursionError). *)
Inductive nested : client -> Prop :=
| ne_limit e : nested (mk_client (fun _ => raise e) (fun _ => raise e) (fun _ => raise e) (fun _ => raise e))
| ne_next a a' : nested a' -> (forall s, uses a' unit (on_sms a s)) -> (forall s, uses a' unit (on_report a s)) -> (forall n, uses a' unit (on_ring a n)) ->
    (forall n, uses a' unit (on_status a n)) -> nested a.
(** calls keep their ids, and stay there *)
Definition same_ids (m m' : modem) : Prop := forall n c, nth_error (callObjs m) n = Some c -> exists c', nth_error (callObjs m') n = Some c' /\ c_id c' = c_id c.

(** A status callback that hangs the call up when it is told that the call is not
    answered (any more); [e] is raised when callbacks are nested too deep. *)
Fixpoint hanging (e : exn) (k : nat) : client :=
  mk_client (fun _ => ret tt) (fun _ => ret tt) (fun _ => ret tt)
    (match k with
     | O => fun _ => raise e
     | S k' => fun n => do m <- get; if c_answered (the_call m n) then ret tt else hangup_with (hanging e k') n
     end).
(** the same, but doing so once only *)
Definition hanging_once : client :=
  mk_client (fun _ => ret tt) (fun _ => ret tt) (fun _ => ret tt) (fun n => do m <- get; if c_answered (the_call m n) then ret tt else hangup_with idle n).
(** every command is answered with "OK" *)
Definition all_ok (k : nat) : list reply := repeat (Lines [lit "OK"]) k.
(** which report about a call the news is *)
Inductive means (b : book) : news -> option report -> Prop :=
| me_report r : means b (News r) (Some r)
| me_answered id n : first_unanswered b (Some (id, n)) -> means b SomeAnswered (Some (Answered id))
| me_rejected id n : first_unanswered b (Some (id, n)) -> means b SomeRejected (Some (Rejected (Some id)))
| me_none w : first_unanswered b None -> w = SomeAnswered \/ w = SomeRejected -> means b w None.
(** nothing has changed but flags of call [n]; it is as active as before, and the table is the same *)
Definition only_flags (n : nat) (m m' : modem) : Prop :=
  activeCalls m' = activeCalls m /\ length (callObjs m') = length (callObjs m) /\
  forall k c, nth_error (callObjs m) k = Some c -> exists c', nth_error (callObjs m') k = Some c' /\ (k <> n -> c' = c) /\ c_id c' = c_id c /\ c_active c' = c_active c /\ c_callback c' = c_callback c.
(** the command ATH, answered with "OK" *)
Definition ATH_OK : str * option reply := ask (lit "ATH") (Lines [lit "OK"]).
