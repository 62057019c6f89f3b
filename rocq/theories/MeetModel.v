(** Model of gsmmodem/modem.py:668-699 sendUssd with 1114-1120 _handleUssd, and of
    701-742 dial (when it waits for the announcement of the call) with 935-947
    _handleCallInitiated, running in several threads at the same time.

    The application may call these methods from several threads, every notification is
    handled in a thread of its own (modem.py:847-855), and the thread that polls the
    status of a call (730-732) announces it in the same way as a notification (1188).
    The threads share the attributes _ussdSessionEvent and _ussdResponse, or _dialEvent
    and _dialResponse, and activeCalls; no lock protects them.  Both pairs of methods
    follow the same scheme, so that there is one model with a [kind].

    Simplified: the outcome of a command is any outcome of write (C41, C42);
    the call objects are those of the threads, and activeCalls is changed by dial only. *)
From Verif Require Export Base UtilModel ModemCore SmsModel CallModel UssdModel.

(** What the two pairs differ in: the response contained in the acknowledgement, if any
    (sendUssd, lines 688-692); what is done without a response (696: None is returned,
    736: None cannot be unpacked); the key under which the call is entered (738). *)
Record kind (R : Type) := mk_kind {
  k_ack : list str -> option (res R);
  k_none : res (option R);
  k_key : R -> option Z }.
Arguments k_ack {R}. Arguments k_none {R}. Arguments k_key {R}. Arguments mk_kind {R}.
Definition ussd_kind : kind ussd := mk_kind
  (fun cusdResponse => match cusdResponse with
     | _ :: _ :: _ => match lineStartingWith (lit "+CUSD") cusdResponse with Some _ => Some (parseCusdResponse cusdResponse) | None => None end
     | _ => None
     end)
  (Ok None) (fun _ => None).
Definition dial_kind : kind (Z * Z) := mk_kind (fun _ => None) (Err TypeError) (fun r => Some (fst r)).

(** The attributes.  An Event object is a number; [sh_set]: the Events that have been
    set; [sh_made]: how many there are.  [sh_calls]: activeCalls, with the threads whose
    dial() made the call. *)
Record shared (R : Type) := mk_shared {
  sh_event : option nat;           (* _ussdSessionEvent, _dialEvent *)
  sh_response : option R;          (* _ussdResponse, _dialResponse *)
  sh_set : list nat;
  sh_made : nat;
  sh_calls : list (Z * nat) }.
Arguments sh_event {R}. Arguments sh_response {R}. Arguments sh_set {R}. Arguments sh_made {R}. Arguments sh_calls {R}. Arguments mk_shared {R}.
Definition new_event {R} (h : shared R) := mk_shared (Some (sh_made h)) (sh_response h) (sh_set h) (S (sh_made h)) (sh_calls h).
Definition no_event {R} (h : shared R) := mk_shared None (sh_response h) (sh_set h) (sh_made h) (sh_calls h).
Definition put_response {R} (r : R) (h : shared R) := mk_shared (sh_event h) (Some r) (sh_set h) (sh_made h) (sh_calls h).
Definition fire {R} (e : nat) (h : shared R) := mk_shared (sh_event h) (sh_response h) (e :: sh_set h) (sh_made h) (sh_calls h).
Definition enter {R} (id : Z) (i : nat) (h : shared R) := mk_shared (sh_event h) (sh_response h) (sh_set h) (sh_made h) (zset (sh_calls h) id i).

(** Where a call of sendUssd or dial is; the lines that come next. *)
Inductive stage (R : Type) :=
| Begin                                (* 680, 714: the Event *)
| Write                                (* 682, 716: the command *)
| Cancel (x : res R)                   (* 684, 718, 691: the attribute is None again; then raise, or return (692) *)
| Await                                (* 694, 734: the attribute is read for wait() *)
| Waiting (e : nat)                    (* 694, 734: in wait() *)
| Woken                                (* 695, 735 *)
| Take                                 (* 696, 736 *)
| Enter (id : Z) (r : R)               (* 738 *)
| GivenUp                              (* 698, 741 *)
| Over (x : res (option R)).
Arguments Begin {R}. Arguments Write {R}. Arguments Cancel {R}. Arguments Await {R}. Arguments Waiting {R}. Arguments Woken {R}.
Arguments Take {R}. Arguments Enter {R}. Arguments GivenUp {R}. Arguments Over {R}.
(** Where the handler of a notification is *)
Inductive hstage :=
| Test                                 (* 1116, 937 *)
| Store                                (* 1118, 938-946 *)
| Fire                                 (* 1120, 947 *)
| Handled (x : res unit).
(** A thread.  [content]: what the notification says ([_parseCusdResponse] may raise). *)
Inductive thread (R : Type) :=
| Calling (st : stage R)
| Handling (content : res R) (st : hstage).
Arguments Calling {R}. Arguments Handling {R}.

Record system (R : Type) := mk_system { sy_shared : shared R; sy_threads : list (thread R) }.
Arguments sy_shared {R}. Arguments sy_threads {R}. Arguments mk_system {R}.

(** The steps: a call begins, a notification comes, a thread goes on.  [WriteEnds x]:
    the command ends with [x]; [GiveUp]: wait() ends without the event. *)
Inductive action (R : Type) :=
| ACall
| ANotified (content : res R)
| AGo (i : nat)
| AWriteEnds (i : nat) (x : res (list str))
| AGiveUp (i : nat).
Arguments ACall {R}. Arguments ANotified {R}. Arguments AGo {R}. Arguments AWriteEnds {R}. Arguments AGiveUp {R}.
(** What is done, for the statements *)
Inductive label (R : Type) :=
| LCalled (i : nat)                    (* thread [i] calls *)
| LNotified (i : nat) (content : res R)(* thread [i] handles a notification *)
| LEvent (i e : nat)                   (* the call of [i] makes an Event *)
| LWrote (i : nat) (x : res (list str))
| LTested (i : nat)                    (* the handler [i] has found an Event *)
| LNothing (i : nat)                   (* there is no Event to wait for, or to set *)
| LGaveUp (i : nat)                    (* wait() ends without it *)
| LStored (i : nat) (r : R)            (* the response is stored *)
| LFired (i e : nat)                   (* the Event is set *)
| LTook (i : nat) (r : R)              (* the response is taken *)
| LQuiet (i : nat).
Arguments LCalled {R}. Arguments LNotified {R}. Arguments LEvent {R}. Arguments LWrote {R}. Arguments LTested {R}. Arguments LNothing {R}. Arguments LGaveUp {R}. Arguments LStored {R}.
Arguments LFired {R}. Arguments LTook {R}. Arguments LQuiet {R}.

Definition weaken {R} (x : res R) : res (option R) := match x with Ok r => Ok (Some r) | Err e => Err e end.
(** the next step of a call that needs no input *)
Definition caller_go {R} (k : kind R) (i : nat) (h : shared R) (st : stage R) : option (shared R * stage R * label R) :=
  match st with
  | Begin => Some (new_event h, Write, LEvent i (sh_made h))
  | Write => None
  | Cancel x => Some (no_event h, Over (weaken x), LQuiet i)
  | Await => match sh_event h with Some e => Some (h, Waiting e, LQuiet i) | None => Some (h, Over (Err AttributeError), LNothing i) end
  | Waiting e => if existsb (Nat.eqb e) (sh_set h) then Some (h, Woken, LQuiet i) else None
  | Woken => Some (no_event h, Take, LQuiet i)
  | Take => match sh_response h with
            | Some r => Some (h, match k_key k r with Some id => Enter id r | None => Over (Ok (Some r)) end, LTook i r)
            | None => Some (h, Over (k_none k), LQuiet i)
            end
  | Enter id r => Some (enter id i h, Over (Ok (Some r)), LQuiet i)
  | GivenUp => Some (no_event h, Over (Err (TimeoutException None)), LQuiet i)
  | Over _ => None
  end.
Definition after_write {R} (k : kind R) (x : res (list str)) : stage R :=
  match x with
  | Err e => Cancel (Err e)
  | Ok ls => match k_ack k ls with Some x => Cancel x | None => Await end
  end.
(** the next step of a handler *)
Definition handler_go {R} (i : nat) (content : res R) (h : shared R) (st : hstage) : option (shared R * hstage * label R) :=
  match st with
  | Test => match sh_event h with Some _ => Some (h, Store, LTested i) | None => Some (h, Handled (Ok tt), LQuiet i) end
  | Store => match content with
             | Ok r => Some (put_response r h, Fire, LStored i r)
             | Err e => Some (h, Handled (Err e), LQuiet i)
             end
  | Fire => match sh_event h with
            | Some e => Some (fire e h, Handled (Ok tt), LFired i e)
            | None => Some (h, Handled (Err AttributeError), LNothing i)
            end
  | Handled _ => None
  end.
Definition act {R} (k : kind R) (s : system R) (a : action R) : option (system R * label R) :=
  let h := sy_shared s in let ts := sy_threads s in
  match a with
  | ACall => Some (mk_system h (ts ++ [Calling Begin]), LCalled (length ts))
  | ANotified c => Some (mk_system h (ts ++ [Handling c Test]), LNotified (length ts) c)
  | AGo i => match nth_error ts i with
             | Some (Calling st) => match caller_go k i h st with
                 | Some (h', st', l) => Some (mk_system h' (update ts i (fun _ => Calling st')), l)
                 | None => None end
             | Some (Handling c st) => match handler_go i c h st with
                 | Some (h', st', l) => Some (mk_system h' (update ts i (fun _ => Handling c st')), l)
                 | None => None end
             | None => None
             end
  | AWriteEnds i x => match nth_error ts i with
             | Some (Calling Write) => Some (mk_system h (update ts i (fun _ => Calling (after_write k x))), LWrote i x)
             | _ => None
             end
  | AGiveUp i => match nth_error ts i with
             | Some (Calling (Waiting e)) => if existsb (Nat.eqb e) (sh_set h) then None
                 else Some (mk_system h (update ts i (fun _ => Calling GivenUp)), LGaveUp i)
             | _ => None
             end
  end.
(** executions: steps in the order in which they are made *)
Inductive run {R} (k : kind R) (s : system R) : list (label R) -> system R -> Prop :=
| run_nil : run k s [] s
| run_snoc ls s1 a s2 l : run k s ls s1 -> act k s1 a = Some (s2, l) -> run k s (ls ++ [l]) s2.
