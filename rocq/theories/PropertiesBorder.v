(** Property C119: where an address field ends. *)
From Verif Require Import Base DateModel PduModel PduSpec SmsSpec DeliverSpec BorderSpec BorderProofs.

(** C119: a service centre number whose octets contain no filler ends where its length says. *)
Theorem C119_whole : forall toa a rest, in_octet toa -> type_of_number toa <> 5 -> Forall full a -> a <> [] ->
  same_message (decodeSmsPdu_bytes (len a + 1 :: toa :: a ++ rest)) (decodeSmsPdu_bytes (0 :: rest)).
Proof. exact centre_whole. Qed.
Print Assumptions C119_whole.
(** Otherwise it ends behind the first octet with a filler, whatever its length says: everything is
    read as if the length were that, but for the length given for the message.  The same holds if the
    length says that there is no octet at all (L = 1). *)
Theorem C119_cut : forall L toa a f rest, 1 <= L -> in_octet toa -> type_of_number toa <> 5 -> Forall full a -> filled f -> (L = 1 \/ len a + 1 < L) ->
  decodeSmsPdu_bytes (L :: toa :: a ++ f :: rest) = shorter (L - (len a + 2)) (decodeSmsPdu_bytes (len a + 2 :: toa :: a ++ f :: rest)) /\
  same_message (decodeSmsPdu_bytes (L :: toa :: a ++ f :: rest)) (decodeSmsPdu_bytes (0 :: rest)).
Proof. exact centre_cut. Qed.
Print Assumptions C119_cut.
(** so a message is refused if the number is filled up with octets FF (and with any text, sender, ...) *)
Theorem C119_padded : forall L toa a f rest, 1 <= L -> in_octet toa -> type_of_number toa <> 5 -> Forall full a -> filled f -> len a + 1 < L ->
  decodeSmsPdu_bytes (L :: toa :: a ++ f :: 255 :: rest) = Err EncodingError.
Proof. exact padded. Qed.
Print Assumptions C119_padded.
(** and without a filler the field takes all that there is, if its length is 1 or too large *)
Theorem C119_all : forall L toa it, 1 <= L -> in_octet toa -> type_of_number toa <> 5 -> Forall full it -> (L = 1 \/ len it <= L - 1) ->
  decodeSmsPdu_bytes (L :: toa :: it) = Err StopIteration.
Proof. exact centre_out. Qed.
Print Assumptions C119_all.
(** An alphanumeric service centre is taken to be half as long as it is. *)
Theorem C119_text : forall L toa a rest m, 1 <= L -> in_octet toa -> type_of_number toa = 5 -> len a = (L + 1) / 2 -> decodeSmsPdu_bytes (L :: toa :: a ++ rest) = Ok m ->
  same_message (Ok m) (decodeSmsPdu_bytes (0 :: rest)).
Proof. exact centre_text. Qed.
Print Assumptions C119_text.
(** The number of a sender or recipient also ends behind the first octet with a filler. *)
Theorem C119_number : forall smsc smscf first mr D toa a f rest, std_smsc smsc smscf -> 0 <= first < 256 -> in_octet toa -> type_of_number toa <> 5 -> Forall full a -> filled f -> 2 * len a < D ->
  (mti first = 0 -> decodeSmsPdu_bytes (smscf ++ first :: D :: toa :: a ++ f :: rest) = decodeSmsPdu_bytes (smscf ++ first :: 2 * len a + 1 :: toa :: a ++ f :: rest)) /\
  (mti first = 1 \/ mti first = 2 -> decodeSmsPdu_bytes (smscf ++ first :: mr :: D :: toa :: a ++ f :: rest) = decodeSmsPdu_bytes (smscf ++ first :: mr :: 2 * len a + 1 :: toa :: a ++ f :: rest)).
Proof. exact sender_cut. Qed.
Print Assumptions C119_number.
(** "Hi" from 12345 *)
Definition hi_tpdu : list Z := [0; 5; 0x81; 0x21; 0x43; 0xF5; 0; 0; 0x62; 0x11; 0x61; 0x80; 0x03; 0; 0x40; 2; 0xC8; 0x34].
Definition hi_body : sms_body := SmsDeliver (Some (lit "12345")) 0 (mk_datetime 2026 11 16 8 30 0 0 (Some (td_of_minutes 60))) None (lit "Hi").
Example C119_example :
  decodeSmsPdu_bytes (0 :: hi_tpdu) = Ok (mk_sms None 18 hi_body) /\
  (* the service centre 1234; 12345; 12345 filled up to eight digits; no digits *)
  decodeSmsPdu_bytes ([3; 0x81; 0x21; 0x43] ++ hi_tpdu) = Ok (mk_sms (Some (lit "1234")) 18 hi_body) /\
  decodeSmsPdu_bytes ([4; 0x81; 0x21; 0x43; 0xF5] ++ hi_tpdu) = Ok (mk_sms (Some (lit "12345")) 18 hi_body) /\
  decodeSmsPdu_bytes ([5; 0x81; 0x21; 0x43; 0xF5; 0xFF] ++ hi_tpdu) = Err EncodingError /\
  decodeSmsPdu_bytes ([1; 0x80] ++ hi_tpdu) = Err ValueError /\
  decodeSmsPdu_bytes ([1; 0x80] ++ [0; 4; 0x81; 0x21; 0x43; 0; 0; 0x62; 0x11; 0x61; 0x80; 0x03; 0; 0x40; 2; 0xC8; 0x34]) = Err StopIteration /\
  Forall full [0x21; 0x43] /\ filled 0xF5 /\ type_of_number 0x81 = 0.
Proof.
  do 6 (split; [vm_compute; reflexivity|]). split; [unfold full; repeat constructor; lia|]. split; [unfold filled; lia|reflexivity].
Qed.
(** the service centre "Hi" (three octets: C119_text reads the message from its place), and "Hello"
    (six octets, of which three are read) *)
Example C119_text_example :
  decodeSmsPdu_bytes ([3; 0xD0; 0xC8; 0x34] ++ hi_tpdu) = Ok (mk_sms (Some (lit "Hi")) 18 hi_body) /\
  decodeSmsPdu_bytes ([6; 0xD0; 0xC8; 0x32; 0x9B; 0xFD; 0x06] ++ hi_tpdu) = Err ValueError /\ type_of_number 0xD0 = 5.
Proof. vm_compute. auto. Qed.
(** a sender 123 with a length of five digits: the octet behind the filler is the protocol identifier *)
Example C119_number_example :
  decodeSmsPdu_bytes [0; 0; 5; 0x81; 0x21; 0xF3; 0x42; 0; 0; 0x62; 0x11; 0x61; 0x80; 0x03; 0; 0x40; 2; 0xC8; 0x34] = Err ValueError /\
  decodeSmsPdu_bytes [0; 0; 5; 0x81; 0x21; 0xF3; 0x42; 0; 0x62; 0x11; 0x61; 0x80; 0x03; 0; 0x40; 2; 0xC8; 0x34] =
    Ok (mk_sms None 17 (SmsDeliver (Some (lit "123")) 0x42 (mk_datetime 2026 11 16 8 30 0 0 (Some (td_of_minutes 60))) None (lit "Hi"))).
Proof. vm_compute. auto. Qed.
