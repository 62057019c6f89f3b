(** Specification vocabulary for dialling and for incoming calls. *)
From Verif Require Import Base ModemCore ModemSpec SendSpec TrackSpec CallModel NotifyModel PollSpec BookSpec.

(** ** Dialling *)
Definition outgoing (id ty : Z) (number : str) (cb : bool) : call := mk_call id false (Some ty) (Some number) cb false true false 0.
(** a call is added and entered into the table under its id; no other call changes *)
Definition adds_call (c : call) (b : book) (n : nat) (b' : book) : Prop :=
  n = length (b_calls b) /\ b_calls b' = b_calls b ++ [c] /\ entered (c_id c) n (b_table b) (b_table b').
(** the command, written with or without awaiting an answer *)
Inductive dialled (number : str) : bool -> list event -> res unit -> Prop :=
| dd_answered evs a : exchange (lit "ATD" ++ number ++ lit ";") [13] evs (Ok a) -> dialled number true evs (Ok tt)
| dd_failed evs e : exchange (lit "ATD" ++ number ++ lit ";") [13] evs (Err e) -> dialled number true evs (Err e)
| dd_blind wait : dialled number false (EWrite ((lit "ATD" ++ number ++ lit ";") ++ [13]) None :: pause wait) (Ok tt).
(** dial() up to waiting for the call to be initiated.  [waitAtd]: whether an answer to
    ATD is awaited, [waitInit]: whether the modem tells when a call is initiated. *)
Inductive dials (waitAtd waitInit : bool) (number : str) (cb : bool) (b : book) : list event -> res (option nat) -> book -> Prop :=
| di_at_once evs n b' : waitInit = false -> dialled number waitAtd evs (Ok tt) ->
    adds_call (outgoing (Z.of_nat (length (b_table b)) + 1) 0 number cb) b n b' -> b_dialling b' = b_dialling b -> b_dialled b' = b_dialled b ->
    dials waitAtd waitInit number cb b evs (Ok (Some n)) b'
| di_waits evs : waitInit = true -> dialled number waitAtd evs (Ok tt) ->
    dials waitAtd waitInit number cb b evs (Ok None) (mk_book (b_calls b) (b_table b) (Some false) (b_dialled b))
| di_failed evs e : dialled number waitAtd evs (Err e) ->
    dials waitAtd waitInit number cb b evs (Err e) (mk_book (b_calls b) (b_table b) (if waitInit then None else b_dialling b) (b_dialled b)).

(** *** The wait *)
(** an operation that tells that a call is initiated: a notification about this, or
    the poller *)
Inductive announces (t : call_table) : call_op -> Z -> Z -> Prop :=
| an_line before line after id ty : Forall (unrelated t) before -> call_news t line (News (Initiated id ty)) -> announces t (Notification (before ++ line :: after)) id ty
| an_polled id ty : announces t (Polled (Initiated id ty)) id ty.
Definition silent (t : call_table) (o : call_op) : Prop := forall id ty, ~ announces t o id ty.
(** the last announcement *)
Inductive last_announced (t : call_table) : list call_op -> option (Z * Z) -> Prop :=
| la_none os : Forall (silent t) os -> last_announced t os None
| la_some os1 o os2 id ty : announces t o id ty -> Forall (silent t) os2 -> last_announced t (os1 ++ o :: os2) (Some (id, ty)).
(** dial() is not called again by the application meanwhile *)
Definition no_dialling (o : call_op) : Prop := match o with Dial _ _ | DialEnd _ _ => False | _ => True end.
(** What goes on while dial() waits.  As in [call_history], what does not belong to calls
    may change in any way in between. *)
Inductive meanwhile : modem -> list call_op -> modem -> Prop :=
| mw_nil m : meanwhile m [] m
| mw_op m os m1 o sc : meanwhile m os m1 -> no_dialling o -> applicable o m1 -> meanwhile m (os ++ [o]) (state_after (perform o (start m1 sc)))
| mw_other m os m1 m2 : meanwhile m os m1 -> book_of m2 = book_of m1 -> callUpdates m2 = callUpdates m1 -> meanwhile m os m2.
(** how dial() ends *)
Inductive dial_ends (number : str) (cb : bool) (b : book) : option (Z * Z) -> res nat -> book -> Prop :=
| de_told id ty n b' : adds_call (outgoing id ty number cb) b n b' -> b_dialling b' = None -> b_dialled b' = Some (id, ty) -> dial_ends number cb b (Some (id, ty)) (Ok n) b'
| de_timeout : dial_ends number cb b None (Err (TimeoutException None)) (mk_book (b_calls b) (b_table b) None (b_dialled b)).

(** ** Incoming calls *)
(** "+CLIP: "<number>",<digits>..." *)
Definition clip_line (line number : str) : Prop :=
  exists sp plus ds ds2 more nl, line = lit "+CLIP:" ++ sp ++ [34] ++ number ++ [34; 44] ++ ds2 ++ more ++ nl /\ number = plus ++ ds /\
    blank sp /\ (plus = [] \/ plus = [43]) /\ digits ds /\ digits ds2 /\ ~ In 10 more /\ line_end nl.
(** the caller's number, if the modem gives it: in the second line *)
Inductive caller (clip : bool) : list str -> option str -> Prop :=
| ca_given ring line rest number : clip = true -> clip_line line number -> caller clip (ring :: line :: rest) (Some number)
| ca_other ring line rest : (forall number, ~ clip_line line number) -> caller clip (ring :: line :: rest) None
| ca_off lines : clip = false -> caller clip lines None
| ca_alone ring : caller clip [ring] None.
(** What kind of call it is: with extended codes ([crc]), the text after the first blank
    of the first line.  When there is none, extended codes are switched on again; if
    that is refused, they are not expected any more. *)
Inductive ring_kind (crc : bool) : str -> list event -> res (option str) -> bool -> Prop :=
| rk_plain line : crc = false -> ring_kind crc line [] (Ok None) false
| rk_extended a kind : crc = true -> ~ In 32 a -> ring_kind crc (a ++ 32 :: kind) [] (Ok (Some kind)) true
| rk_again line evs ls : crc = true -> ~ In 32 line -> exchange (lit "AT+CRC=1") [13] evs (Ok ls) -> ring_kind crc line evs (Ok None) true
| rk_refused line evs e : crc = true -> ~ In 32 line -> exchange (lit "AT+CRC=1") [13] evs (Err e) -> is_CommandError e = true -> ring_kind crc line evs (Ok None) false
| rk_failed line evs e : crc = true -> ~ In 32 line -> exchange (lit "AT+CRC=1") [13] evs (Err e) -> is_CommandError e = false -> ring_kind crc line evs (Err e) true.

(** a call in the table with this number *)
Definition same_number (b : book) (number : option str) (incoming : bool) (e : Z * nat) : Prop :=
  exists c, nth_error (b_calls b) (snd e) = Some c /\ c_number c = number /\ c_incoming c = incoming.
Definition other_number (b : book) (number : option str) (e : Z * nat) : Prop :=
  exists c, nth_error (b_calls b) (snd e) = Some c /\ c_number c <> number.
Definition rung (c : call) : call := mk_call (c_id c) (c_incoming c) (c_type c) (c_number c) (c_callback c) (c_answered c) (c_active c) (c_ringing c) (c_ringCount c + 1).
(** the calls of these entries that have the number have rung once more; no other call
    changes *)
Definition rings (b : book) (number : option str) (entries : list (Z * nat)) (b' : book) : Prop :=
  length (b_calls b') = length (b_calls b) /\ b_table b' = b_table b /\ b_dialling b' = b_dialling b /\ b_dialled b' = b_dialled b /\
  (forall e c, In e entries -> nth_error (b_calls b) (snd e) = Some c -> c_number c = number -> nth_error (b_calls b') (snd e) = Some (rung c)) /\
  (forall n, (forall e, In e entries -> snd e = n -> other_number b number e) -> nth_error (b_calls b') n = nth_error (b_calls b) n).
(** The type of a call; kinds other than "VOICE" are not known. *)
Inductive kind_of_call : option str -> res (option Z) -> Prop :=
| kc_none : kind_of_call None (Ok None)
| kc_voice : kind_of_call (Some (lit "VOICE")) (Ok (Some 0))
| kc_other s : s <> lit "VOICE" -> kind_of_call (Some s) (Err KeyError).
(** A call rings.  When there is an incoming call with this number (or, if no number is
    given, without one), it is taken to be this; otherwise it is a new call.  [evs]: the
    callback with the call.  An outgoing call with this number is an error. *)
Inductive takes_ring (b : book) (number kind : option str) : list event -> res unit -> book -> Prop :=
| tr_new ty n b' : Forall (other_number b number) (b_table b) -> kind_of_call kind (Ok ty) ->
    adds_call (mk_call (Z.of_nat (length (b_table b)) + 1) true ty number false false true true 1) b n b' -> b_dialling b' = b_dialling b -> b_dialled b' = b_dialled b ->
    takes_ring b number kind [ERing n] (Ok tt) b'
| tr_kind e : Forall (other_number b number) (b_table b) -> kind_of_call kind (Err e) -> takes_ring b number kind [] (Err e) b
| tr_again t1 id n t2 b' : b_table b = t1 ++ (id, n) :: t2 -> same_number b number true (id, n) ->
    Forall (fun e => other_number b number e \/ same_number b number true e) t1 -> Forall (other_number b number) t2 ->
    rings b number (b_table b) b' -> takes_ring b number kind [ERing n] (Ok tt) b'
| tr_crossing t1 e t2 b' : b_table b = t1 ++ e :: t2 -> same_number b number false e ->
    Forall (fun e => other_number b number e \/ same_number b number true e) t1 -> rings b number t1 b' ->
    takes_ring b number kind [] (Err AttributeError) b'.
(** what is done with the lines of a notification of an incoming call: asking for extended
    codes, then the above *)
Inductive incoming (crc clip : bool) (b : book) (lines : list str) : list event -> res unit -> bool -> book -> Prop :=
| ic_failed ring rest evs e crc' : lines = ring :: rest -> ring_kind crc ring evs (Err e) crc' -> incoming crc clip b lines evs (Err e) crc' b
| ic_rings ring rest evs kind crc' number tr x b' : lines = ring :: rest -> ring_kind crc ring evs (Ok kind) crc' -> caller clip lines number ->
    takes_ring b number kind tr x b' -> incoming crc clip b lines (evs ++ tr) x crc' b'.
