(** Specification vocabulary for what other senders may put into a PDU, from
    TS 23.038 and 23.040. *)
From Verif Require Import Base DateModel PduModel PduSpec SmsSpec DeliverSpec SubmitSpec.

(** ** Data coding schemes (TS 23.038 section 4): 0 the default alphabet, 1 octets,
    2 UCS-2, 3 reserved *)
Definition ts23038_alphabet (dcs : Z) : Z :=
  if dcs <? 128 then (dcs / 4) mod 4           (* general data coding; marked for automatic deletion *)
  else if dcs / 16 =? 14 then 2                (* message waiting: store message, UCS-2 *)
  else if dcs / 16 =? 15 then (dcs / 4) mod 2  (* data coding and message class *)
  else 0.                                      (* reserved groups; message waiting *)
(** bit 5 of the first two groups: the text is compressed *)
Definition compressed (dcs : Z) : bool := (dcs <? 128) && Z.odd (dcs / 32).

(** the text of a decoded message *)
Definition text_of_sms (s : sms) : option str :=
  match sms_type s with SmsDeliver _ _ _ _ t | SmsSubmit _ _ _ _ _ t => Some t | SmsStatusReport _ _ _ _ _ => None end.

(** ** SMS-SUBMIT (TS 23.040 section 9.2.2.2) *)
(** TP-VPF *)
Definition vpf (first : Z) : Z := (first / 8) mod 4.
Inductive sent_validity : Z -> list Z -> dvalidity -> Prop :=
| sv_none : sent_validity 0 [] DVNone
| sv_relative o : in_octet o -> sent_validity 2 [o] (DVRelative (ts23040_relative_vp o * us_per_s))
| sv_absolute t q : sms_time t q -> sent_validity 3 (timestamp_of t q) (DVAbsolute t).

(** ** Digits of an address (TS 23.040 section 9.1.2.3): * # a b c are 10 to 14 *)
Definition ts23040_digit (n : Z) : Z := nth (Z.to_nat n) (lit "0123456789*#abc") 0.
Definition code_or_fill (codes : list Z) (i : nat) : Z := match nth_error codes i with Some n => n | None => 15 end.
Definition semi_codes (codes octets : list Z) : Prop :=
  2 * len octets = len codes + len codes mod 2 /\
  forall i, (i < length octets)%nat -> nth i octets 0 = code_or_fill codes (2 * i) + 16 * code_or_fill codes (2 * i + 1).

Definition code_ok (n : Z) : Prop := 0 <= n <= 14.
(** international numbers have a plus sign *)
Definition plus_if (toa : Z) (d : str) : str := if type_of_number toa =? 1 then 43 :: d else d.

(** ** Septets of the default alphabet as a receiver reads them (TS 23.038 section
    6.2.1.1): for a code that is not in the extension table the character of the
    default alphabet; a space for two escapes *)
Inductive std_reading : list Z -> str -> Prop :=
| sr_nil : std_reading [] []
| sr_basic i c s t : nth_error ts23038_basic i = Some (Some c) -> std_reading s t -> std_reading (Z.of_nat i :: s) (c :: t)
| sr_ext p c s t : In (p, c) ts23038_ext -> std_reading s t -> std_reading (0x1B :: p :: s) (c :: t)
| sr_unknown i c s t : (forall c', ~ In (Z.of_nat i, c') ts23038_ext) -> nth_error ts23038_basic i = Some (Some c) -> std_reading s t ->
    std_reading (0x1B :: Z.of_nat i :: s) (c :: t)
| sr_double s t : std_reading s t -> std_reading (0x1B :: 0x1B :: s) (32 :: t).
(** as this library reads them *)
Inductive lib_reading : list Z -> str -> Prop :=
| lr_nil : lib_reading [] []
| lr_basic i c s t : nth_error ts23038_basic i = Some (Some c) -> c <> 0xA7 -> lib_reading s t -> lib_reading (Z.of_nat i :: s) (c :: t)
| lr_section s t : lib_reading s t -> lib_reading (0x5F :: s) (0x60 :: t)
| lr_ext p c s t : In (p, c) ts23038_ext -> c <> 0x0C -> lib_reading s t -> lib_reading (0x1B :: p :: s) (c :: t)
| lr_lost p s t : 0 <= p < 128 -> (forall c, In (p, c) ts23038_ext -> c = 0x0C) -> lib_reading s t -> lib_reading (0x1B :: p :: s) t.
(** both read the same *)
Inductive same_reading : list Z -> Prop :=
| sa_nil : same_reading []
| sa_basic x s : x <> 0x1B -> x <> 0x5F -> same_reading s -> same_reading (x :: s)
| sa_ext p c s : In (p, c) ts23038_ext -> c <> 0x0C -> same_reading s -> same_reading (0x1B :: p :: s).
(** the last septet is an escape to nothing *)
Inductive cut_escape : list Z -> Prop :=
| ce_here : cut_escape [0x1B]
| ce_basic x s : x <> 0x1B -> cut_escape s -> cut_escape (x :: s)
| ce_escaped p s : cut_escape s -> cut_escape (0x1B :: p :: s).
