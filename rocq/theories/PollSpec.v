(** Specification vocabulary for polling the status of calls. *)
From Verif Require Import Base ModemCore ModemSpec SendSpec CoverageSpec PollModel.

(** "+CLCC: <id>,<direction>,<state>,<type>,<x>,"<number>",<digits>" *)
Definition clcc_line (line : str) (id dir stat ty : Z) : Prop :=
  exists sp ds d s t x number ds2 nl,
    line = lit "+CLCC:" ++ sp ++ ds ++ [44; d; 44; s; 44; t; 44; x; 44; 34] ++ number ++ [34; 44] ++ ds2 ++ nl /\
    sp <> [] /\ blank sp /\ digits ds /\ is_digit d = true /\ is_digit s = true /\ is_digit t = true /\ x <> 44 /\ ~ In 44 number /\
    digits ds2 /\ line_end nl /\ id = dec_value ds /\ dir = d - 48 /\ stat = s - 48 /\ ty = t - 48.

(** What one round sees: a call (id, direction, state, type), or none.  No answer in
    time is "none". *)
Definition sight := option (Z * Z * Z * Z).
Inductive sees : reply -> sight -> Prop :=
| se_call l ls id dir stat ty : good_answer (l :: ls) -> clcc_line l id dir stat ty -> sees (Lines (l :: ls)) (Some (id, dir, stat, ty))
| se_none l ls : good_answer (l :: ls) -> (forall id dir stat ty, ~ clcc_line l id dir stat ty) -> sees (Lines (l :: ls)) None
| se_late ls : sees (NoReply ls) None.
(** the replies of several rounds; busy replies are not looked at *)
Inductive rounds : list reply -> list sight -> Prop :=
| ro_nil : rounds [] []
| ro_round busy codes r o rs os : all_busy busy codes -> sees r o -> rounds rs os -> rounds (busy ++ r :: rs) (o :: os).

(** an outgoing call being dialled or alerting, or active *)
Definition dialling (o : sight) (id ty : Z) : Prop := exists stat, o = Some (id, 0, stat, ty) /\ (stat = 2 \/ stat = 3).
Definition active (o : sight) (id : Z) : Prop := exists ty, o = Some (id, 0, 0, ty).
Definition not_dialling (o : sight) : Prop := forall id ty, ~ dialling o id ty.
Definition pending (o : sight) : Prop := o <> None /\ forall id, ~ active o id.

(** what is reported *)
Inductive report := Initiated (id ty : Z) | Answered (id : Z) | CallEnded (id : option Z) | Rejected (id : option Z).
(** The reports for what was seen, and whether the call is over.  The first sight of an
    outgoing call being dialled; then the first of an active one; then the first time
    no call is seen, or this before any active one. *)
Inductive reported : list sight -> list report -> bool -> Prop :=
| re_waiting os : Forall not_dialling os -> reported os [] false
| re_initiated a o b id ty : Forall not_dialling a -> dialling o id ty -> Forall pending b ->
    reported (a ++ o :: b) [Initiated id ty] false
| re_rejected a o b id ty : Forall not_dialling a -> dialling o id ty -> Forall pending b ->
    reported (a ++ o :: b ++ [None]) [Initiated id ty; Rejected (Some id)] true
| re_answered a o b o' c id ty id' : Forall not_dialling a -> dialling o id ty -> Forall pending b -> active o' id' -> Forall (fun o => o <> None) c ->
    reported (a ++ o :: b ++ o' :: c) [Initiated id ty; Answered id'] false
| re_ended a o b o' c id ty id' : Forall not_dialling a -> dialling o id ty -> Forall pending b -> active o' id' -> Forall (fun o => o <> None) c ->
    reported (a ++ o :: b ++ o' :: c ++ [None]) [Initiated id ty; Answered id'; CallEnded (Some id')] true.

(** Handlers that, as far as the part [L] of the attributes is concerned, do with a
    report what [step] says, and send no commands. *)
Definition performs {K} (L : modem -> K) (step : K -> report -> res unit -> K -> Prop) (c : M unit) (r : report) : Prop :=
  forall w, exists x w', c w = Done x w' /\ step (L (dev w)) r x (L (dev w')) /\ script w' = script w /\ asked (trace w') = asked (trace w).
Definition performing {K} (L : modem -> K) (step : K -> report -> res unit -> K -> Prop) (h : poll_handlers) : Prop :=
  (forall id ty, performs L step (on_initiated h id ty) (Initiated id ty)) /\ (forall id, performs L step (on_answered h id) (Answered id)) /\
  (forall id, performs L step (on_ended h id) (CallEnded id)) /\ (forall id, performs L step (on_rejected h id) (Rejected id)) /\
  (forall v m, L (set_writeWait v m) = L m).
(** several reports; the last of them may have failed *)
Inductive performed {K} (step : K -> report -> res unit -> K -> Prop) : K -> list report -> option exn -> K -> Prop :=
| pe_none k : performed step k [] None k
| pe_report k r k1 reps x k2 : step k r (Ok tt) k1 -> performed step k1 reps x k2 -> performed step k (r :: reps) x k2
| pe_failed k r e k1 : step k r (Err e) k1 -> performed step k [r] (Some e) k1.
(** the port was closed (self.alive false) when round [n] would have started *)
Definition closed_at (alive_at : list bool) (n : nat) : Prop := nth_error alive_at n = Some false.

(** The time is up: [n] rounds (half seconds) without a sight of the call, except
    perhaps in the last. *)
Definition time_up (n : Z) (os : list sight) : Prop := Z.of_nat (length os) = Z.max 0 n /\ Forall not_dialling (removelast os).
(** How the poller ends, having seen [os] in the replies [used]: when a handler fails
    ([failed]), normally when the call is over or the port is closed, with a time-out
    when the time is up, or when the modem answers with an error; or it is still
    waiting for an answer. *)
Definition poll_ends (alive_at : list bool) (n : Z) (os : list sight) (over : bool) (failed : option exn) (used : list reply) (o : out unit) : Prop :=
  match failed, o with
  | Some e, Done x _ => x = Err e /\ rounds used os
  | Some _, Stuck _ => False
  | None, Done (Ok _) _ => rounds used os /\ (over = true \/ over = false /\ closed_at alive_at (length os)) /\ ~ time_up n os
  | None, Done (Err e) _ => over = false /\ (rounds used os /\ e = TimeoutException None /\ time_up n os \/
      exists u busy codes r, used = u ++ busy ++ [r] /\ rounds u os /\ all_busy busy codes /\ outcome (lit "AT+CLCC") r (Err e) /\ (forall d, e <> TimeoutException d) /\ ~ time_up n os)
  | None, Stuck _ => over = false /\ exists u busy codes, used = u ++ busy /\ rounds u os /\ all_busy busy codes /\ ~ time_up n os
  end /\
  (forall a b, os = a ++ b -> b <> [] -> ~ time_up n a) /\ (forall k, (k < length os)%nat -> ~ closed_at alive_at k).
