(** Specification vocabulary for connecting that fails. *)
From Verif Require Import Base ModemCore ModemSpec SendSpec TrackSpec CoverageSpec ConnectSpec SetupSpec UtilSpec.

(** commands that connect does without when they are refused *)
Definition dispensable : list str := map lit
  ["AT+CFUN?"; "AT+CFUN=1"; "AT+CLAC"; "AT^CVOICE=0"; "AT^USSDMODE=0"; "AT+WIND?"; "AT+ZPAS?"; "AT+COPS=3,0"; "AT+CSMP=49,167,0,0";
   "AT+CPMS=?"; "AT+CNMI=2,1,0,2"; "AT+CLIP=1"; "AT+CRC=1"; "AT+CVHU=0"]%string.
(** queries for a number, and what the line with it begins with *)
Definition number_query : list (str * str) := [(lit "AT+CFUN?", lit "+CFUN:"); (lit "AT+WIND?", lit "+WIND:")].
Definition pin_in_time (r : reply) : Prop :=
  match r with Lines ls => good_answer ls | NoReply ls => exists l, In l ls /\ starts_with (lit "+CPIN") l end.

(** Why connect fails: after [before] the command was answered by [r]. *)
Inductive failure (pin : option str) : list (str * option reply) -> str -> reply -> exn -> Prop :=
| fl_answer before command r e : outcome command r (Err e) ->
    (In command dispensable -> ~ refusal r) -> (command = lit "ATZ" -> refusal r -> sent command before) ->
    (command = lit "AT+CPIN?" -> ~ pin_in_time r) -> (command = lit "AT+CSCA?" -> forall c, e <> SmscNumberUnknownError c 330) ->
    failure pin before command r e
| fl_no_line before command p ls : In (command, p) number_query -> good_answer ls -> (forall l, In l ls -> ~ starts_with p l) ->
    failure pin before command (Lines ls) TypeError
| fl_no_number before command p ls l : In (command, p) number_query -> good_answer ls -> first_such (starts_with p) ls l ->
    py_int 10 (skipn 7 l) = Err ValueError -> failure pin before command (Lines ls) ValueError
| fl_no_memories before ls : good_answer ls -> (forall l, In l ls -> ~ starts_with (lit "+CPMS") l) ->
    failure pin before (lit "AT+CPMS=?") (Lines ls) AttributeError
| fl_bare_memories before ls l : good_answer ls -> first_such (starts_with (lit "+CPMS")) ls l -> ~ In 32 l ->
    failure pin before (lit "AT+CPMS=?") (Lines ls) IndexError
| fl_no_pin before r : pin = None -> pin_in_time r -> ~ sim_ready r ->
    failure pin before (lit "AT+CPIN?") r (PinRequiredError (lit "AT+CPIN") 11).
