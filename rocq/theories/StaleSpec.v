(** Specification vocabulary for calls whose end is not noticed. *)
From Verif Require Import Base ModemCore ModemSpec SendSpec TrackSpec CallModel NotifyModel PollSpec BookSpec DialSpec.

(** What ends call [n] with the number [id]: hanging it up; a notification of its end; on
    some modems a notification that says a call was refused, for the first that is not
    answered; the poller. *)
Inductive ends_by (t : call_table) (b : book) (n : nat) (id : Z) : call_op -> Prop :=
| eb_hangup : ends_by t b n id (Hangup n)
| eb_told before line after : In (id, n) (b_table b) -> Forall (unrelated t) before -> call_news t line (News (CallEnded (Some id))) -> ends_by t b n id (Notification (before ++ line :: after))
| eb_refused before line after : Forall (unrelated t) before -> call_news t line SomeRejected -> first_unanswered b (Some (id, n)) -> ends_by t b n id (Notification (before ++ line :: after))
| eb_polled r : In (id, n) (b_table b) -> r = CallEnded (Some id) \/ r = Rejected (Some id) -> ends_by t b n id (Polled r).
(** What goes on from [m] on, as in [call_history]. *)
Inductive later (m : modem) : list (modem * call_op * modem) -> modem -> Prop :=
| lt_now : later m [] m
| lt_op hs m1 o sc : later m hs m1 -> applicable o m1 -> later m (hs ++ [(m1, o, state_after (perform o (start m1 sc)))]) (state_after (perform o (start m1 sc)))
| lt_other hs m1 m2 : later m hs m1 -> callObjs m2 = callObjs m1 -> activeCalls m2 = activeCalls m1 -> later m hs m2.
(** the call with this entry is the only one in the table with its number *)
Definition only_one (b : book) (number : option str) (e : Z * nat) : Prop :=
  In e (b_table b) /\ same_number b number true e /\ forall e', In e' (b_table b) -> e' <> e -> other_number b number e'.
