(** What the network does with a message between two modems (TS 23.040): it takes the
    SMS-SUBMIT apart, and hands its user data to the destination as an SMS-DELIVER. *)
From Verif Require Import Base DateModel PduModel PduSpec SmsSpec SubmitSpec DeliverSpec ModemCore ModemSpec SendSpec SmsModel StoreSpec.

(** ** Taking an SMS-SUBMIT apart *)
(** octets of TP-VP by TP-VPF (section 9.2.3.3): none, relative, enhanced or absolute *)
Definition validity_length (first : Z) : Z :=
  let vpf := (first / 8) mod 4 in if vpf =? 0 then 0 else if vpf =? 2 then 1 else 7.
(** [w] are the fields of the octets [data], a message to [to] *)
Definition submit_of (data : list Z) (to : str) (w : submit) : Prop :=
  data = submit_octets w /\ mti (s_first w) = 1 /\ (exists smsc, std_smsc smsc (s_smsc w)) /\
  std_address to (s_dest w) /\ len (s_vp w) = validity_length (s_first w).

(** ** The message the other side gets *)
(** Sent by [from], through the service centre [smsc], at the time [t].  Protocol,
    alphabet, header flag and user data are those of the SMS-SUBMIT; the remaining
    bits of the first octet are the network's. *)
Inductive forwards (data : list Z) (to from : str) (t : datetime) (smsc : option str) : list Z -> Prop :=
| forward w smscf first oaf q : submit_of data to w ->
    std_smsc smsc smscf -> 0 <= first < 256 -> mti first = 0 -> udhi first = udhi (s_first w) ->
    std_address from oaf -> type_of_number (nth 1 oaf 0) <> 5 -> sms_time t q ->
    forwards data to from t smsc
      (deliver_octets smscf first oaf (s_pid w) (s_dcs w) (timestamp_of t q) (s_udl w) (s_ud w)).

(** the lines AT+CMGR gives for a stored PDU *)
Definition stored_as (data : list Z) (stat : Z) (content : list str) : Prop :=
  exists head hex, content = [head; hex] /\ pdu_header head stat /\ hex_text data hex.

(** fill bits in front of the text of a part *)
Definition part_fill (gsm7 : bool) (text : str) : Z := if max_chars gsm7 <? len text then 1 else 0.
(** the parts have room for the whole text, and no part ends with the character the
    library may lose *)
Definition whole (gsm7 : bool) (text : str) : Prop :=
  (max_chars gsm7 < len text -> len text <= pdu_count gsm7 text * Z.of_nat (part_chars gsm7)) /\
  (gsm7 = true -> ~ In 64 text).

(** [s] is what a modem driven by this library makes of part [i] (from 0) of a text *)
Definition part_received (number text : str) (ref : Z) (fl : bool) (i : nat) (from : str) (t : datetime) (smsc : option str) (stat : Z) (s : stored_sms) : Prop :=
  exists pdus p to data content, encodeSmsSubmitPdu number text ref VNone None true false fl = Ok pdus /\ nth_error pdus i = Some p /\
    forwards (pdu_data p) to from t smsc data /\ stored_as data stat content /\ handed_as false content s.

(** ** Replies *)
(** the address field a reply carries: the digits of the sender's field; a number
    that is not international becomes a national one *)
Definition reply_field (oaf field : list Z) : Prop :=
  exists n toa toa' v, oaf = n :: toa :: v /\ field = n :: toa' :: v /\
    toa' = if type_of_number toa =? 1 then 0x91 else 0xA1.
