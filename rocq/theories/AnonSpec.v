(** Vocabulary for messages without a sender or without a text. *)
From Verif Require Import Base DateModel PduModel PduSpec SmsSpec DeliverSpec SmsModel StoreSpec ListSpec.

(** TS 23.040 section 9.1.2.5: an address without digits still consists of the length
    (0) and the type-of-address octet. *)
Definition no_address (toa : Z) : list Z := [0; toa].

(** A time whose last two digits of the year and whose day of the month could also be
    a month and an hour: a year xx01 to xx12 (as 2001 to 2012), and a day up to 23. *)
Definition mistakable (t : datetime) : Prop := 1 <= dt_year t mod 100 <= 12 /\ dt_day t <= 23.

(** [got] is [t] read one field late: its month is the year, its day the month, ... *)
Definition one_field_late (t got : datetime) : Prop :=
  dt_month got = dt_year t mod 100 /\ dt_day got = dt_month t /\ dt_hour got = dt_day t /\ dt_minute got = dt_hour t /\
  dt_second got = dt_minute t /\ dt_utcoff got = Some (td_of_minutes (15 * dt_second t)).

(** A listing in which, after well-formed entries, there is one whose PDU raises an
    exception other than EncodingError; anything may follow. *)
Inductive breaks_off : list str -> exn -> Prop :=
| bo_entry lines es head i stat bad e rest : well_formed lines es -> cmgl_header head i stat -> decodeSmsPdu bad = Err e -> e <> EncodingError ->
    breaks_off (lines ++ head :: bad :: rest) e.
