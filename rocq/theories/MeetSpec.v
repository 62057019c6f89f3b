(** Notions for the statements about several threads that send USSD strings or dial. *)
From Verif Require Export MeetModel.

(** the response stored last, and the thread that stored it *)
Fixpoint last_stored {R} (ls : list (label R)) : option (nat * R) :=
  match ls with
  | [] => None
  | l :: ls' => match last_stored ls' with
                | Some x => Some x
                | None => match l with LStored j r => Some (j, r) | _ => None end
                end
  end.
(** the thread has ended *)
Definition ended {R} (t : thread R) : Prop :=
  match t with Calling (Over _) => True | Handling _ (Handled _) => True | _ => False end.
(** nobody is sending, dialling or handling a notification; the Events in existence are
    the ones made so far *)
Definition idle {R} (s : system R) : Prop :=
  sh_event (sy_shared s) = None /\ Forall (fun e => (e < sh_made (sy_shared s))%nat) (sh_set (sy_shared s)) /\ Forall ended (sy_threads s).
Definition at_thread {R} (s : system R) (i : nat) (t : thread R) : Prop := nth_error (sy_threads s) i = Some t.
(** [l] comes and then [l'] *)
Definition in_order {A} (l l' : A) (ls : list A) : Prop := exists a b c, ls = a ++ l :: b ++ l' :: c.
(** no call besides *)
Definition no_call {R} (ls : list (label R)) : Prop := forall i, ~ In (LCalled i) ls.

(** The ways in which a call may end, given what has happened *)
Inductive ending {R} (k : kind R) (i : nat) (ls : list (label R)) : res (option R) -> Prop :=
| end_write e : In (LWrote i (Err e)) ls -> ending k i ls (Err e)                       (* the command fails *)
| end_ack a x : In (LWrote i (Ok a)) ls -> k_ack k a = Some x -> ending k i ls (weaken x)(* the response is in the acknowledgement *)
| end_took a before after j r :                                                        (* the response stored last is taken *)
    In (LWrote i (Ok a)) before -> k_ack k a = None -> ls = before ++ LTook i r :: after -> last_stored before = Some (j, r) ->
    in_order (LNotified j (Ok r)) (LStored j r) before -> ending k i ls (Ok (Some r))
| end_timeout a before after :                                                         (* wait() ends without the Event *)
    In (LWrote i (Ok a)) before -> k_ack k a = None -> ls = before ++ LGaveUp i :: after -> ending k i ls (Err (TimeoutException None))
| end_nothing a before after :                                                         (* there is no Event to wait for *)
    In (LWrote i (Ok a)) before -> k_ack k a = None -> ls = before ++ LNothing i :: after -> ending k i ls (Err AttributeError).
(** ... when there is no other call: the response is from a notification that has come
    since the call began, and a time-out means that no handler has set the Event before *)
Inductive ending_alone {R} (k : kind R) (i : nat) (ls : list (label R)) : res (option R) -> Prop :=
| alone_write e : In (LWrote i (Err e)) ls -> ending_alone k i ls (Err e)
| alone_ack a x : In (LWrote i (Ok a)) ls -> k_ack k a = Some x -> ending_alone k i ls (weaken x)
| alone_took a before after j r :
    In (LWrote i (Ok a)) before -> k_ack k a = None -> ls = before ++ LTook i r :: after -> last_stored before = Some (j, r) ->
    in_order (LNotified j (Ok r)) (LStored j r) before -> ending_alone k i ls (Ok (Some r))
| alone_timeout a before after :
    In (LWrote i (Ok a)) before -> k_ack k a = None -> ls = before ++ LGaveUp i :: after -> (forall j e, ~ In (LFired j e) before) ->
    ending_alone k i ls (Err (TimeoutException None)).
(** How the handler of a notification may end *)
Inductive handled_as {R} (c : res R) (j : nat) (ls : list (label R)) : res unit -> Prop :=
| handled_ok : handled_as c j ls (Ok tt)
| handled_bad e : c = Err e -> In (LTested j) ls -> handled_as c j ls (Err e)
| handled_nothing : in_order (LTested j) (LNothing j) ls -> handled_as c j ls (Err AttributeError).
(** the acknowledgement of a USSD string with a response in it *)
Definition ussd_in_ack (a : list str) : Prop := (2 <= length a)%nat /\ exists l rest, In l a /\ l = lit "+CUSD" ++ rest.
(** a modem just made *)
Definition unused {R} : system R := mk_system (mk_shared None None [] 0%nat []) [].
(** the calls begun *)
Definition calls_begun {R} (ls : list (label R)) : nat := length (filter (fun l => match l with LCalled _ => true | _ => false end) ls).
(** the notifications that have come *)
Definition notified {R} (ls : list (label R)) : list (res R) := flat_map (fun l => match l with LNotified _ c => [c] | _ => [] end) ls.

(** A thread on its own.  [ev], [resp]: the attributes in the model of a single thread,
    where an Event is the flag it has. *)
Definition meets {R} (ev : option bool) (resp : option R) (h : shared R) : Prop :=
  resp = sh_response h /\ Forall (fun e => (e < sh_made h)%nat) (sh_set h) /\
  match ev with
  | None => sh_event h = None
  | Some b => exists e, sh_event h = Some e /\ (e < sh_made h)%nat /\ (b = true <-> In e (sh_set h))
  end.
Inductive call_alone {R} (k : kind R) (i : nat) : shared R -> stage R -> list (res (list str)) -> shared R -> stage R -> Prop :=
| ca_nil h st : call_alone k i h st [] h st
| ca_go h st h1 st1 l xs h' st' : caller_go k i h st = Some (h1, st1, l) -> call_alone k i h1 st1 xs h' st' -> call_alone k i h st xs h' st'
| ca_write h x xs h' st' : call_alone k i h (after_write k x) xs h' st' -> call_alone k i h Write (x :: xs) h' st'
| ca_give_up h e xs h' st' : existsb (Nat.eqb e) (sh_set h) = false -> call_alone k i h GivenUp xs h' st' -> call_alone k i h (Waiting e) xs h' st'.
Inductive handler_alone {R} (j : nat) (c : res R) : shared R -> hstage -> shared R -> hstage -> Prop :=
| ha_nil h st : handler_alone j c h st h st
| ha_go h st h1 st1 l h' st' : handler_go j c h st = Some (h1, st1, l) -> handler_alone j c h1 st1 h' st' -> handler_alone j c h st h' st'.
