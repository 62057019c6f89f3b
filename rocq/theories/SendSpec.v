(** Specification vocabulary for sending SMS and tracking their delivery. *)
From Verif Require Import Base PduModel PduSpec DeliverSpec ModemCore ModemSpec.

(** "AT+CMGS=<octets>", and the hexadecimal text of a PDU *)
Definition announces (p : pdu) (command : str) : Prop :=
  exists ds, decimal (pdu_tpduLength p) ds /\ command = lit "AT+CMGS=" ++ ds.
Definition carries (p : pdu) (text : str) : Prop := hex_text (pdu_data p) text.

(** The parts are sent one after the other: each is announced and, when the answer
    was no error, transmitted; the first error ends it.  The result is the answer
    to the last part. *)
Inductive transmission : list pdu -> list str -> list event -> res (list str) -> Prop :=
| tr_end answer : transmission [] answer [] (Ok answer)
| tr_part p ps answer c t e1 e2 e3 a1 a2 x : announces p c -> carries p t ->
    exchange c [13] e1 (Ok a1) -> exchange t [26] e2 (Ok a2) -> transmission ps a2 e3 x ->
    transmission (p :: ps) answer (e1 ++ e2 ++ e3) x
| tr_refused p ps answer c e1 e : announces p c -> exchange c [13] e1 (Err e) ->
    transmission (p :: ps) answer e1 (Err e)
| tr_failed p ps answer c t e1 e2 a1 e : announces p c -> carries p t ->
    exchange c [13] e1 (Ok a1) -> exchange t [26] e2 (Err e) ->
    transmission (p :: ps) answer (e1 ++ e2) (Err e).
Definition transmits (ps : list pdu) (evs : list event) (x : res (list str)) : Prop := transmission ps [] evs x.
(** what has been done so far is the beginning of a transmission: the next thing is
    to hear nothing more *)
Definition transmitting (ps : list pdu) (evs : list event) : Prop :=
  exists text, transmits ps (evs ++ [EWrite text (Some (NoReply []))]) (Err (TimeoutException None)).

(** the first "+CMGS:" line of an answer, and the number in it: decimal digits from
    the eighth character on, possibly signed or between blanks *)
Definition starts_with (p : str) (l : str) : Prop := exists r, l = p ++ r.
Definition first_cmgs (answer : list str) (line : str) : Prop :=
  exists before after, answer = before ++ line :: after /\ starts_with (lit "+CMGS:") line /\
    Forall (fun l => ~ starts_with (lit "+CMGS:") l) before.
Definition blank (s : str) : Prop := Forall (fun c => is_space c = true) s.
Inductive number_text : Z -> str -> Prop :=
| nt ds a b : digits ds -> blank a -> blank b -> number_text (dec_value ds) (a ++ ds ++ b)
| nt_plus ds a b : digits ds -> blank a -> blank b -> number_text (dec_value ds) (a ++ 43 :: ds ++ b)
| nt_minus ds a b : digits ds -> blank a -> blank b -> number_text (- dec_value ds) (a ++ 45 :: ds ++ b).
Definition reference_in (answer : list str) (n : Z) : Prop :=
  exists line, first_cmgs answer line /\ number_text n (skipn 7 line).

(** What the answer to the last part makes of the call: it succeeds when
    that answer contains a reference. *)
Definition final_answer (y : res (list str)) (x : res nat) : Prop :=
  match y, x with
  | Err e, Err e' => e' = e
  | Ok a, Ok _ => exists n, reference_in a n
  | Ok a, Err _ => forall n, ~ reference_in a n
  | Err _, Ok _ => False
  end.

(** ** Delivery status *)
(** what happened: the application sent a message, which got this reference; a
    status report for this reference with this status code was read *)
Inductive happening := Sent (reference : Z) | Reported (reference code : Z).
(** the code of the last report for [r] before [r] is given to another message *)
Fixpoint verdict_for (r : Z) (hs : list happening) (so_far : option Z) : option Z :=
  match hs with
  | [] => so_far
  | Sent r' :: hs' => if r' =? r then so_far else verdict_for r hs' so_far
  | Reported r' c :: hs' => verdict_for r hs' (if r' =? r then Some c else so_far)
  end.
(** ENROUTE 0, DELIVERED 1, FAILED 2 *)
Definition status_for (v : option Z) (status : Z) : Prop :=
  (v = None /\ status = 0) \/ (v = Some 0 /\ status = 1) \/ (exists c, v = Some c /\ c <> 0 /\ status = 2).
(** the [k]-th message sent, its reference, and what happened after it *)
Fixpoint sent_as (k : nat) (hs : list happening) : option (Z * list happening) :=
  match hs with
  | [] => None
  | Reported _ _ :: hs' => sent_as k hs'
  | Sent r :: hs' => match k with O => Some (r, hs') | S k' => sent_as k' hs' end
  end.

(** ** Notifications: "+CMTI: "<memory>",<index>" and the same with +CDSI *)
Definition indication (kind memory index line : str) : Prop :=
  exists sp nl, line = kind ++ sp ++ 34 :: memory ++ [34; 44] ++ index ++ nl /\
    blank sp /\ memory <> [] /\ ~ In 34 memory /\ digits index /\ line_end nl.

(** ** Histories of sends and status reports *)
(** the references that the messages sent got, oldest first *)
Definition quiet_minus (sc : list reply) : Prop :=
  forall ls l, In (Lines ls) sc -> In l ls -> starts_with (lit "+CMGS:") l -> ~ In 45 l.
