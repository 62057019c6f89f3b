(** Specification vocabulary for whole SMS PDUs, written from 3GPP TS 23.040 and
    independent of the definitions in [PduModel]. *)
From Verif Require Import Base DateModel PduSpec.

(** ** Addresses (TS 23.040 section 9.1.2.5) *)

(** bits 6..4 of the type-of-address octet: 1 international, 2 national, 5 alphanumeric *)
Definition type_of_number (toa : Z) : Z := (toa / 16) mod 8.

(** A phone number as the user writes it: its digits, and its type of number. *)
Definition phone_number (a d : str) (ton : Z) : Prop :=
  digits_ok d /\ d <> [] /\ ((a = d /\ ton = 2) \/ (a = 43 :: d /\ ton = 1)).

(** An address field as the network sends it: the length octet counts useful
    semi-octets.  The texts of alphanumeric addresses are in the GSM alphabet. *)
Inductive std_address : str -> list Z -> Prop :=
| addr_plain d toa v : digits_ok d -> d <> [] -> len d <= 255 -> in_octet toa ->
    type_of_number toa <> 1 -> type_of_number toa <> 5 -> semi_octets d v ->
    std_address d (len d :: toa :: v)
| addr_international d toa v : digits_ok d -> d <> [] -> len d <= 255 -> in_octet toa ->
    type_of_number toa = 1 -> semi_octets d v ->
    std_address (43 :: d) (len d :: toa :: v)
| addr_alphanumeric t s v toa : std_text t s -> t <> [] -> 7 * len s + 3 < 1024 -> in_octet toa ->
    type_of_number toa = 5 -> septet_stream 0 s v ->
    std_address t ((7 * len s + 3) / 4 :: toa :: v).

(** The service centre address in front of the TPDU (TS 23.040 / 27.005): the
    length octet counts the octets that follow; it is 0 when there is none. *)
Inductive std_smsc : option str -> list Z -> Prop :=
| smsc_none : std_smsc None [0]
| smsc_plain d toa v : digits_ok d -> d <> [] -> len v < 255 -> in_octet toa ->
    type_of_number toa <> 1 -> type_of_number toa <> 5 -> semi_octets d v ->
    std_smsc (Some d) (len v + 1 :: toa :: v)
| smsc_international d toa v : digits_ok d -> d <> [] -> len v < 255 -> in_octet toa ->
    type_of_number toa = 1 -> semi_octets d v ->
    std_smsc (Some (43 :: d)) (len v + 1 :: toa :: v).

(** ** What this library's decoder makes of a GSM-7 text of [n] septets preceded
    by [fill] fill bits: a final '@' is dropped when the last septet ends on an
    octet boundary. *)
Definition drops_final_at (fill n : Z) (t : str) : bool :=
  ((fill + 7 * n) mod 8 =? 0) && (last t 0 =? 64).
Inductive gsm7_received (fill : Z) (t : str) : str -> Prop :=
| received_all n : text_weight t n -> drops_final_at fill n t = false -> gsm7_received fill t t
| received_less n : text_weight t n -> drops_final_at fill n t = true -> gsm7_received fill t (removelast t).

(** ** The alphabet as this library knows it: TS 23.038 without section sign and
    form feed, with grave accent at 0x5F and a bare ESC. *)
Inductive lib_septets : Z -> list Z -> Prop :=
| lib_std c s : std_septets c s -> c <> 0xA7 -> c <> 0x0C -> lib_septets c s
| lib_grave : lib_septets 0x60 [0x5F]
| lib_esc : lib_septets 0x1B [0x1B].
Inductive lib_text : str -> list Z -> Prop :=
| lib_nil : lib_text [] []
| lib_cons c s t r : lib_septets c s -> lib_text t r -> lib_text (c :: t) (s ++ r).

(** ** User data (TS 23.040 sections 9.2.3.16, 9.2.3.24) *)

(** fill bits between a header of [h] octets (length octet included) and the
    first septet *)
Definition fill_bits (h : Z) : Z := (- (8 * h)) mod 7.

(** [user_data gsm7 hdr t udl ud]: [udl] and [ud] are the TP-UDL and TP-UD of a
    message carrying the text [t] after the header octets [hdr] *)
Inductive user_data : bool -> list Z -> str -> Z -> list Z -> Prop :=
| ud_gsm7 hdr t s v : lib_text t s -> septet_stream (fill_bits (len hdr)) s v ->
    user_data true hdr t ((8 * len hdr + fill_bits (len hdr)) / 7 + len s) (hdr ++ v)
| ud_ucs2 hdr t : bmp t ->
    user_data false hdr t (len hdr + 2 * len t) (hdr ++ ucs2_be t).

(** The user data header of part [i] of [n] of a concatenated message with an
    8-bit reference (section 9.2.3.24.1): header length, element 0 of length 3. *)
Definition concat_header (reference n i : Z) : list Z := [5; 0; 3; reference; n; i].

(** ** SMS-SUBMIT (TS 23.040 section 9.2.2.2) behind its service centre address *)
Record submit := mk_submit {
  s_smsc : list Z; s_first : Z; s_ref : Z; s_dest : list Z; s_pid : Z; s_dcs : Z;
  s_vp : list Z; s_udl : Z; s_ud : list Z }.
Definition tpdu_octets (w : submit) : list Z :=
  [s_first w; s_ref w] ++ s_dest w ++ [s_pid w; s_dcs w] ++ s_vp w ++ [s_udl w] ++ s_ud w.
Definition submit_octets (w : submit) : list Z := s_smsc w ++ tpdu_octets w.

(** TP-MTI = 01, TP-RD bit 2, TP-VPF bits 4-3, TP-SRR bit 5, TP-UDHI bit 6 *)
Definition submit_first (rejectDuplicates : bool) (vpf : Z) (statusReport udh : bool) : Z :=
  1 + 4 * Z.b2z rejectDuplicates + 8 * vpf + 32 * Z.b2z statusReport + 64 * Z.b2z udh.

(** data coding scheme: alphabet (bits 3-2: 0 GSM-7, 2 UCS-2); class 0 (flash) is
    announced by bit 4 *)
Definition data_coding (gsm7 flash : bool) : Z :=
  (if gsm7 then 0 else 8) + 16 * Z.b2z flash.

(** what a receiver using this library reads from an address of a message sent by it *)
Inductive address_received (a : str) : str -> Prop :=
| ar_phone d ton : phone_number a d ton -> address_received a a
| ar_alpha a' : a <> [] -> (forall d ton, ~ phone_number a d ton) -> gsm7_received 0 a a' ->
    address_received a a'.
