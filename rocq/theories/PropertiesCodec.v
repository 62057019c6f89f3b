(** Properties C01-C12: the field codecs of gsmmodem/pdu.py. *)
From Verif Require Import Base DateModel PduModel PduSpec FieldProofs TimeProofs CodecFinal.

(** C01: decodeSemiOctets(encodeSemiOctets(d)) == d for every digit string, and
    with an octet count exactly those octets of a longer stream are read. *)
Theorem C01_semi_octets_roundtrip : forall d, digits_ok d ->
  exists o, encodeSemiOctets d = Ok o /\ 2 * len o = len d + len d mod 2 /\
    decodeSemiOctets o None = (d, []) /\
    (d <> [] -> forall tail, decodeSemiOctets (o ++ tail) (Some (len o)) = (d, tail)).
Proof. exact semi_roundtrip. Qed.
Print Assumptions C01_semi_octets_roundtrip.
Example C01_example : digits_ok (lit "27821234567") /\
  decodeSemiOctets [0x72; 0x28; 0x21; 0x43; 0x65; 0xF7; 1; 2] (Some 6) = (lit "27821234567", [1; 2]).
Proof. split; [repeat constructor; compute; discriminate|reflexivity]. Qed.

(** C02: the wire layout of semi-octets. *)
Theorem C02_semi_octets_layout : forall d, digits_ok d ->
  exists o, encodeSemiOctets d = Ok o /\ semi_octets d o.
Proof. exact semi_wire. Qed.
Print Assumptions C02_semi_octets_layout.
Example C02_example : encodeSemiOctets (lit "123") = Ok [0x21; 0xF3].
Proof. reflexivity. Qed.

(** C03: GSM-7 text round-trips. *)
Theorem C03_gsm7_roundtrip : forall t r, ~ In 0x1B t -> encodeGsm7 t false = Ok r -> decodeGsm7 r = Ok t.
Proof. exact gsm7_roundtrip_final. Qed.
Print Assumptions C03_gsm7_roundtrip.
Example C03_example : encodeGsm7 (lit "a[b]") false = Ok [97; 27; 60; 98; 27; 62] /\ ~ In 0x1B (lit "a[b]").
Proof. split; [reflexivity|vm_compute; intuition discriminate]. Qed.

(** C04: which texts are accepted, and what the encoder emits. *)
Theorem C04_gsm7_accepts : forall t,
  ((exists r, encodeGsm7 t false = Ok r) <-> Forall encodable t) /\
  (forall r, encodeGsm7 t false = Ok r -> septets_ok r /\ text_weight t (len r)) /\
  (forall p c q, t = p ++ c :: q -> Forall encodable p -> ~ encodable c ->
     encodeGsm7 t false = Err (if c =? 255 then TypeError else ValueError)) /\
  (forall f, (forall c, f c = true <-> encodable c) -> ~ In 255 t ->
     encodeGsm7 t true = encodeGsm7 (filter f t) false) /\
  (In 255 t -> encodeGsm7 t true = Err TypeError).
Proof. exact gsm7_accepts. Qed.
Print Assumptions C04_gsm7_accepts.
Example C04_example :
  encodeGsm7 (lit "x" ++ [0x4E2D] ++ lit "y") false = Err ValueError /\
  encodeGsm7 (lit "x" ++ [0x4E2D] ++ lit "y") true = Ok [120; 121] /\
  encodeGsm7 [255] false = Err TypeError.
Proof. repeat split. Qed.

(** C05: the tables agree with TS 23.038 except at exactly one position each. *)
Theorem C05_gsm7_tables :
  (forall i, (i < 128)%nat -> i <> 0x1B%nat -> i <> 0x5F%nat ->
    exists c, nth_error ts23038_basic i = Some (Some c) /\
      decodeGsm7 [Z.of_nat i] = Ok [c] /\ encodeGsm7 [c] false = Ok [Z.of_nat i]) /\
  (nth_error ts23038_basic 0x5F = Some (Some 0xA7) /\
   decodeGsm7 [0x5F] = Ok [0x60] /\ encodeGsm7 [0xA7] false = Err ValueError) /\
  (forall p, 0 <= p < 128 -> p <> 0x0A ->
    (forall c, In (p, c) ts23038_ext -> decodeGsm7 [0x1B; p] = Ok [c] /\ encodeGsm7 [c] false = Ok [0x1B; p]) /\
    ((forall c, ~ In (p, c) ts23038_ext) -> decodeGsm7 [0x1B; p] = Ok [])) /\
  (In (0x0A, 0x0C) ts23038_ext /\ decodeGsm7 [0x1B; 0x0A] = Ok [] /\ encodeGsm7 [0x0C] false = Err ValueError).
Proof. exact gsm7_tables. Qed.
Print Assumptions C05_gsm7_tables.
Example C05_example : decodeGsm7 [0; 0x1B; 0x65] = Ok [0x40; 0x20AC].
Proof. reflexivity. Qed.

(** C06: packing is the bit stream of TS 23.038; padBits p > 0 stands for 7 - p
    fill bits. *)
Theorem C06_pack_is_bit_stream : forall s padBits,
  septets_ok s -> 0 <= padBits <= 6 -> (padBits = 0 -> s <> []) ->
  exists o, packSeptets s padBits = Ok o /\
    septet_stream (if padBits =? 0 then 0 else 7 - padBits) s o.
Proof. exact pack_final. Qed.
Print Assumptions C06_pack_is_bit_stream.
Example C06_example : packSeptets [104; 101; 108; 108; 111] 0 = Ok [0xE8; 0x32; 0x9B; 0xFD; 0x06].
Proof. reflexivity. Qed.

(** C07: unpacking inverts packing, but for a final '@' that fills an octet. *)
Theorem C07_unpack_inverts_pack : forall s, septets_ok s -> s <> [] ->
  exists o, packSeptets s 0 = Ok o /\
    unpackSeptets o None None 7 =
      Ok (if (len s mod 8 =? 0) && (last s 1 =? 0) then removelast s else s, []).
Proof. exact unpack_pack. Qed.
Print Assumptions C07_unpack_inverts_pack.
Theorem C07_pack_empty : packSeptets [] 0 = Err StopIteration.
Proof. exact SeptetProofs.packSeptets_nil. Qed.
Print Assumptions C07_pack_empty.
Example C07_example : exists o, packSeptets [1; 2; 3; 4; 5; 6; 7; 0] 0 = Ok o /\
  unpackSeptets o None None 7 = Ok ([1; 2; 3; 4; 5; 6; 7], []).
Proof. eexists; split; reflexivity. Qed.

(** C08: unpacking reads the consecutive 7-bit groups of the octets it takes. *)
Theorem C08_unpack_reads_bit_stream : forall o n, octets_ok o -> o <> [] ->
  match n with Some m => 1 <= m | None => True end ->
  let taken := match n with Some m => firstn (Z.to_nat m) o | None => o end in
  let left := match n with Some m => skipn (Z.to_nat m) o | None => [] end in
  let m := len taken in
  exists out, unpackSeptets o n None 7 = Ok (out, left) /\ septets_ok out /\
    (forall k, 0 <= k < 7 * len out -> bit 7 out k = bit 8 taken k) /\
    len out = m + (m - 1) / 7 + (if (m mod 7 =? 0) && negb (last taken 0 / 2 =? 0) then 1 else 0).
Proof. exact unpack_final. Qed.
Print Assumptions C08_unpack_reads_bit_stream.
Example C08_example : unpackSeptets [0xE8; 0x32; 0x9B; 0xFD; 0x06; 9; 9] (Some 5) None 7 =
  Ok ([104; 101; 108; 108; 111], [9; 9]).
Proof. reflexivity. Qed.

(** C09: UCS-2. *)
Theorem C09_ucs2_roundtrip : forall t tail, Forall (fun c => 0 <= c) t ->
  (bmp t -> encodeUcs2 t = Ok (ucs2_be t) /\ len (ucs2_be t) = 2 * len t /\
            decodeUcs2 (ucs2_be t ++ tail) (2 * len t) = (t, tail)) /\
  (~ bmp t -> encodeUcs2 t = Err ValueError).
Proof. exact ucs2_final. Qed.
Print Assumptions C09_ucs2_roundtrip.
Example C09_example : encodeUcs2 [0x4E2D; 0x41] = Ok [0x4E; 0x2D; 0; 0x41] /\ encodeUcs2 [0x1F600] = Err ValueError.
Proof. split; reflexivity. Qed.

(** C10: relative validity periods are rounded down. *)
Theorem C10_validity_rounds_down : forall t, 300 * us_per_s <= t < 442 * us_per_day ->
  exists o, encodeRelativeValidityPeriod t = Ok o /\ in_octet o /\
    ts23040_relative_vp o * us_per_s <= t /\
    forall o', in_octet o' -> ts23040_relative_vp o' * us_per_s <= t ->
      ts23040_relative_vp o' <= ts23040_relative_vp o.
Proof. exact encode_vp_floor. Qed.
Print Assumptions C10_validity_rounds_down.
Theorem C10_validity_decodes : forall o, in_octet o ->
  decodeRelativeValidityPeriod o = Ok (ts23040_relative_vp o * us_per_s).
Proof. exact decode_vp_spec. Qed.
Print Assumptions C10_validity_decodes.
Theorem C10_validity_reencodes : forall o, in_octet o ->
  exists t, decodeRelativeValidityPeriod o = Ok t /\ encodeRelativeValidityPeriod t = Ok o.
Proof. exact vp_roundtrip. Qed.
Print Assumptions C10_validity_reencodes.
Theorem C10_validity_too_long : forall t, 442 * us_per_day <= t -> encodeRelativeValidityPeriod t = Err ValueError.
Proof. exact encode_vp_long. Qed.
Print Assumptions C10_validity_too_long.
Example C10_example : encodeRelativeValidityPeriod (td_of_hours 13 + 59 * us_per_s) = Ok 145 /\
  encodeRelativeValidityPeriod (442 * us_per_day - 1) = Ok 255.
Proof. split; reflexivity. Qed.

(** C11: time stamps round-trip. *)
Theorem C11_timestamp_roundtrip : forall t q tail, sms_time t q ->
  exists o, encodeTimestamp t = Ok o /\
    o = ts23040_timestamp (dt_year t) (dt_month t) (dt_day t) (dt_hour t) (dt_minute t) (dt_second t) q /\
    decodeTimestamp (o ++ tail) = Ok (t, tail).
Proof. exact timestamp_final. Qed.
Print Assumptions C11_timestamp_roundtrip.
Theorem C11_naive_timestamp : forall t, dt_utcoff t = None -> encodeTimestamp t = Err ValueError.
Proof. exact timestamp_naive. Qed.
Print Assumptions C11_naive_timestamp.
Example C11_example :
  let t := mk_datetime 2012 2 29 23 59 59 0 (Some (td_of_minutes (15 * -23))) in
  sms_time t (-23) /\ encodeTimestamp t = Ok [0x21; 0x20; 0x92; 0x32; 0x95; 0x95; 0x3A].
Proof.
  cbv zeta. split; [|reflexivity]. unfold sms_time, real_date, real_time, leap_year; cbn [dt_year dt_month dt_day dt_hour dt_minute dt_second dt_us dt_utcoff].
  repeat split; lia.
Qed.

(** C12: decoding never invents a date. *)
Theorem C12_timestamp_real : forall it, octets_ok it ->
  decodeTimestamp it = Err ValueError \/
  exists t rest q k, decodeTimestamp it = Ok (t, rest) /\ rest = skipn k it /\ (k <= 7)%nat /\
    1969 <= dt_year t <= 2068 /\ real_date (dt_year t) (dt_month t) (dt_day t) /\
    real_time (dt_hour t) (dt_minute t) (dt_second t) /\ dt_us t = 0 /\
    dt_utcoff t = Some (td_of_minutes (15 * q)) /\ -80 < q < 80.
Proof. exact decodeTimestamp_inv. Qed.
Print Assumptions C12_timestamp_real.
Example C12_example : decodeTimestamp [0x21; 0x20; 0x03; 0; 0; 0; 0] = Err ValueError (* 30 February *) /\
  decodeTimestamp [0x21; 0x20] = Err ValueError.
Proof. split; reflexivity. Qed.
