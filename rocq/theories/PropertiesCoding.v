(** Properties C106 to C110: data coding schemes, stored SMS-SUBMITs, digits of
    addresses, escapes in texts, and octets behind the user data. *)
From Verif Require Import Base DateModel PduModel PduSpec SmsSpec DeliverSpec SubmitSpec CodingSpec CodingProofs TrailProofs.

(** C106: data coding schemes. *)
Theorem C106_coded : forall smsc smscf first oa oaf pid dcs alphabet t q es hdr text udl ud,
  std_smsc smsc smscf -> 0 <= first < 256 -> mti first = 0 -> std_address oa oaf ->
  (type_of_number (nth 1 oaf 0) = 5 -> ~ In 0xA7 oa /\ ~ In 0x0C oa) ->
  in_octet pid -> in_octet dcs -> ts23038_alphabet dcs = alphabet -> dcs < 64 \/ alphabet = 0 -> sms_time t q -> header_of first es hdr ->
  sent_text alphabet hdr text udl ud -> udl <= 255 ->
  (alphabet = 0 -> text <> [] /\ ~ In 0xA7 text /\ ~ In 0x0C text) ->
  exists oa' udh text', address_read oaf oa oa' /\ text_read alphabet hdr text text' /\
    match es, udh with None, None => True | Some l, Some os => Forall2 element_object l os | _, _ => False end /\
    let data := deliver_octets smscf first oaf pid dcs (timestamp_of t q) udl ud in
    decodeSmsPdu_bytes data = Ok (mk_sms smsc (len data - len smscf) (SmsDeliver (Some oa') pid t udh text')) /\
    decodeSmsPdu (pdu_str data) = decodeSmsPdu_bytes data.
Proof. exact deliver_coded. Qed.
Print Assumptions C106_coded.
Theorem C106_upper_groups : forall smsc smscf first oa oaf pid dcs t q udl ud,
  std_smsc smsc smscf -> 0 <= first < 256 -> mti first = 0 -> std_address oa oaf ->
  (type_of_number (nth 1 oaf 0) = 5 -> ~ In 0xA7 oa /\ ~ In 0x0C oa) ->
  in_octet pid -> in_octet dcs -> 64 <= dcs -> sms_time t q -> in_octet udl -> octets_ok ud ->
  decodeSmsPdu_bytes (deliver_octets smscf first oaf pid dcs (timestamp_of t q) udl ud) =
  decodeSmsPdu_bytes (deliver_octets smscf first oaf pid 0 (timestamp_of t q) udl ud).
Proof. exact deliver_miscoded. Qed.
Print Assumptions C106_upper_groups.
Theorem C106_compressed : forall smsc smscf first oa oaf pid dcs t q udl ud,
  std_smsc smsc smscf -> 0 <= first < 256 -> mti first = 0 -> std_address oa oaf ->
  (type_of_number (nth 1 oaf 0) = 5 -> ~ In 0xA7 oa /\ ~ In 0x0C oa) ->
  in_octet pid -> in_octet dcs -> compressed dcs = true -> sms_time t q -> in_octet udl -> octets_ok ud ->
  decodeSmsPdu_bytes (deliver_octets smscf first oaf pid dcs (timestamp_of t q) udl ud) =
  decodeSmsPdu_bytes (deliver_octets smscf first oaf pid (dcs - 32) (timestamp_of t q) udl ud).
Proof. exact deliver_compressed. Qed.
Print Assumptions C106_compressed.
Theorem C106_ucs2_lost : forall smsc smscf first oa oaf pid dcs t q c text,
  std_smsc smsc smscf -> 0 <= first < 256 -> mti first = 0 -> udhi first = false -> std_address oa oaf ->
  (type_of_number (nth 1 oaf 0) = 5 -> ~ In 0xA7 oa /\ ~ In 0x0C oa) ->
  in_octet pid -> in_octet dcs -> 64 <= dcs -> ts23038_alphabet dcs = 2 -> sms_time t q -> bmp (c :: text) -> 2 * len (c :: text) <= 255 -> c <> 64 ->
  forall s, decodeSmsPdu_bytes (deliver_octets smscf first oaf pid dcs (timestamp_of t q) (2 * len (c :: text)) (ucs2_be (c :: text))) = Ok s -> text_of_sms s <> Some (c :: text).
Proof. exact deliver_ucs2_lost. Qed.
Print Assumptions C106_ucs2_lost.
(** "hi" in UCS-2: with the scheme 8 (general group), 0x18 (with a class), 0xE0
    (message waiting: store message); and with 0x28, which says it is compressed;
    "hi" in the default alphabet with the scheme 0xF0 *)
Definition hi_with (dcs : Z) : list Z := deliver_octets [0] 0 [1; 0x81; 0xF1] 0 dcs [0x11; 0x10; 0x11; 0x71; 0x95; 0x51; 0x40] 4 [0; 104; 0; 105].
Example C106_example :
  map (fun d => match decodeSmsPdu_bytes (hi_with d) with Ok s => text_of_sms s | Err _ => None end) [8; 0x18; 0x28; 0x48; 0xE0] =
    [Some (lit "hi"); Some (lit "hi"); Some (lit "hi"); Some (64 :: lit "P" ++ [0xA3; 72]); Some (64 :: lit "P" ++ [0xA3; 72])] /\
  map ts23038_alphabet [8; 0x18; 0x28; 0x48; 0xE0; 0xF0] = [2; 2; 2; 2; 2; 0] /\
  map compressed [8; 0x28; 0x68; 0xE0; 0xF0] = [false; true; true; false; false] /\
  match decodeSmsPdu_bytes (deliver_octets [0] 0 [1; 0x81; 0xF1] 0 0xF0 [0x11; 0x10; 0x11; 0x71; 0x95; 0x51; 0x40] 2 [0xE8; 0x34]) with Ok s => text_of_sms s | Err _ => None end = Some (lit "hi").
Proof. vm_compute. repeat split; reflexivity. Qed.

(** C107: SMS-SUBMITs kept in the memory of the device. *)
Theorem C107_stored : forall smsc w da alphabet v es hdr text,
  std_smsc smsc (s_smsc w) -> 0 <= s_first w < 256 -> mti (s_first w) = 1 -> std_address da (s_dest w) ->
  (type_of_number (nth 1 (s_dest w) 0) = 5 -> ~ In 0xA7 da /\ ~ In 0x0C da) ->
  in_octet (s_ref w) -> in_octet (s_pid w) -> in_octet (s_dcs w) -> ts23038_alphabet (s_dcs w) = alphabet -> s_dcs w < 64 \/ alphabet = 0 ->
  sent_validity (vpf (s_first w)) (s_vp w) v -> header_of (s_first w) es hdr -> sent_text alphabet hdr text (s_udl w) (s_ud w) -> s_udl w <= 255 ->
  (alphabet = 0 -> text <> [] /\ ~ In 0xA7 text /\ ~ In 0x0C text) ->
  exists da' udh text', address_read (s_dest w) da da' /\ text_read alphabet hdr text text' /\
    match es, udh with None, None => True | Some l, Some os => Forall2 element_object l os | _, _ => False end /\
    decodeSmsPdu_bytes (submit_octets w) = Ok (mk_sms smsc (len (tpdu_octets w)) (SmsSubmit (s_ref w) (Some da') (s_pid w) v udh text')) /\
    decodeSmsPdu (pdu_str (submit_octets w)) = decodeSmsPdu_bytes (submit_octets w).
Proof. exact submit_stored. Qed.
Print Assumptions C107_stored.
Theorem C107_enhanced : forall smsc smscf first mr da daf pid dcs u vp udl ud,
  std_smsc smsc smscf -> 0 <= first < 256 -> mti first = 1 -> vpf first = 1 -> std_address da daf ->
  (type_of_number (nth 1 daf 0) = 5 -> ~ In 0xA7 da /\ ~ In 0x0C da) ->
  in_octet mr -> in_octet pid -> in_octet dcs -> octets_ok (u :: vp) -> in_octet udl -> octets_ok ud ->
  decodeSmsPdu_bytes (submit_octets (mk_submit smscf first mr daf pid dcs (u :: vp) udl ud)) =
  decodeSmsPdu_bytes (submit_octets (mk_submit smscf (first - 8) mr daf pid dcs [] u (vp ++ udl :: ud))).
Proof. exact submit_enhanced. Qed.
Print Assumptions C107_enhanced.
Theorem C107_enhanced_octets : forall smsc smscf first mr da daf pid dcs u vp udl ud,
  std_smsc smsc smscf -> 0 <= first < 256 -> mti first = 1 -> vpf first = 1 -> udhi first = false -> std_address da daf -> type_of_number (nth 1 daf 0) <> 5 ->
  in_octet mr -> in_octet pid -> 0 <= dcs < 64 -> ts23038_alphabet dcs = 1 -> octets_ok (u :: vp) -> in_octet udl -> octets_ok ud ->
  exists n, decodeSmsPdu_bytes (submit_octets (mk_submit smscf first mr daf pid dcs (u :: vp) udl ud)) =
    Ok (mk_sms smsc n (SmsSubmit mr (Some da) pid DVNone None (vp ++ udl :: ud))).
Proof. exact submit_enhanced_octets. Qed.
Print Assumptions C107_enhanced_octets.
(** the octets 1 2 3 for the number 5: without a validity period, with one of
    an hour, and with the enhanced format (an hour in seconds), whose octets are
    read as user data *)
Definition stored_with (first : Z) (vp : list Z) : list Z := submit_octets (mk_submit [0] first 7 [1; 0x81; 0xF5] 0 4 vp 3 [1; 2; 3]).
Example C107_example :
  (exists n, decodeSmsPdu_bytes (stored_with 1 []) = Ok (mk_sms None n (SmsSubmit 7 (Some (lit "5")) 0 DVNone None [1; 2; 3]))) /\
  (exists n, decodeSmsPdu_bytes (stored_with 0x11 [11]) = Ok (mk_sms None n (SmsSubmit 7 (Some (lit "5")) 0 (DVRelative (3600 * us_per_s)) None [1; 2; 3]))) /\
  (exists n, decodeSmsPdu_bytes (stored_with 0x19 [0x11; 0x10; 0x11; 0x71; 0x95; 0x51; 0x40]) = Ok (mk_sms None n (SmsSubmit 7 (Some (lit "5")) 0
     (DVAbsolute (mk_datetime 2011 1 11 17 59 15 0 (Some (td_of_minutes 60)))) None [1; 2; 3]))) /\
  vpf 1 = 0 /\ vpf 0x11 = 2 /\ vpf 0x19 = 3 /\ vpf 9 = 1 /\
  (exists n, decodeSmsPdu_bytes (stored_with 9 [2; 0x0E; 0x10; 0; 0; 0; 0]) = Ok (mk_sms None n (SmsSubmit 7 (Some (lit "5")) 0 DVNone None [0x0E; 0x10; 0; 0; 0; 0; 3; 1; 2; 3]))).
Proof. repeat split; try reflexivity; eexists; vm_compute; reflexivity. Qed.

(** C108: digits of an address that are not decimal. *)
Theorem C108_read : forall smsc smscf first codes toa v pid dcs alphabet t q es hdr text udl ud,
  std_smsc smsc smscf -> 0 <= first < 256 -> mti first = 0 -> Forall code_ok codes -> codes <> [] -> len codes <= 255 -> in_octet toa -> type_of_number toa <> 5 -> semi_codes codes v ->
  in_octet pid -> in_octet dcs -> ts23038_alphabet dcs = alphabet -> dcs < 64 \/ alphabet = 0 -> sms_time t q -> header_of first es hdr ->
  sent_text alphabet hdr text udl ud -> udl <= 255 -> (alphabet = 0 -> text <> [] /\ ~ In 0xA7 text /\ ~ In 0x0C text) ->
  exists udh text', text_read alphabet hdr text text' /\
    let data := deliver_octets smscf first (len codes :: toa :: v) pid dcs (timestamp_of t q) udl ud in
    decodeSmsPdu_bytes data = Ok (mk_sms smsc (len data - len smscf) (SmsDeliver (Some (plus_if toa (map (fun n => nth (Z.to_nat n) (lit "0123456789abcde") 0) codes))) pid t udh text')).
Proof. exact deliver_digits. Qed.
Print Assumptions C108_read.
Theorem C108_differ : forall codes,
  Forall code_ok codes ->
  (map (fun n => nth (Z.to_nat n) (lit "0123456789abcde") 0) codes = map ts23040_digit codes <-> Forall (fun n => n <= 9) codes).
Proof. exact digits_differ. Qed.
Print Assumptions C108_differ.
Theorem C108_sent : forall number text ref v smsc srr rd fl pdus p,
  encodeSmsSubmitPdu number text ref v smsc srr rd fl = Ok pdus -> In p pdus -> In 42 number \/ In 35 number ->
  exists w, fields number smsc v p w /\ type_of_number (nth 1 (s_dest w) 0) = 5.
Proof. exact digits_sent. Qed.
Print Assumptions C108_sent.
(** "*100#" is read as "a100b", and sent as an alphanumeric address *)
Example C108_example :
  map ts23040_digit [10; 1; 0; 0; 11] = lit "*100#" /\ semi_codes [10; 1; 0; 0; 11] [0x1A; 0x00; 0xFB] /\
  (exists s, decodeSmsPdu_bytes (deliver_octets [0] 0 [5; 0x81; 0x1A; 0x00; 0xFB] 0 4 [0x11; 0x10; 0x11; 0x71; 0x95; 0x51; 0x40] 1 [9]) = Ok s /\
     match sms_type s with SmsDeliver n _ _ _ _ => n | _ => None end = Some (lit "a100b")) /\
  (exists p, encodeSmsSubmitPdu (lit "*100#") (lit "x") 0 VNone None true false false = Ok [p] /\ nth 3 (pdu_data p) 0 = 10 /\ nth 4 (pdu_data p) 0 = 0xD0).
Proof.
  split; [reflexivity|]. split; [split; [reflexivity|]; intros [|[|[|i]]] H; try reflexivity; cbn in H; lia|].
  split; eexists; vm_compute; repeat split; reflexivity.
Qed.

(** C109: escapes in a text. *)
Theorem C109_septets : forall s,
  septets_ok s -> (exists t, lib_reading s t /\ decodeGsm7 s = Ok t) \/ (cut_escape s /\ decodeGsm7 s = Err StopIteration).
Proof. exact septets_read. Qed.
Print Assumptions C109_septets.
Theorem C109_agree : forall s t,
  std_reading s t -> (decodeGsm7 s = Ok t <-> same_reading s).
Proof. exact readings_agree. Qed.
Print Assumptions C109_agree.
Theorem C109_message : forall smsc smscf first oa oaf pid dcs t q s v,
  std_smsc smsc smscf -> 0 <= first < 256 -> mti first = 0 -> udhi first = false -> std_address oa oaf -> type_of_number (nth 1 oaf 0) <> 5 ->
  in_octet pid -> in_octet dcs -> ts23038_alphabet dcs = 0 -> sms_time t q -> septets_ok s -> s <> [] -> septet_stream 0 s v -> len s <= 255 ->
  exists s', (s' = s \/ ((7 * len s) mod 8 = 0 /\ s = s' ++ [0])) /\
    let data := deliver_octets smscf first oaf pid dcs (timestamp_of t q) (len s) v in
    ((exists text, lib_reading s' text /\ decodeSmsPdu_bytes data = Ok (mk_sms smsc (len data - len smscf) (SmsDeliver (Some oa) pid t None text))) \/
     (cut_escape s' /\ decodeSmsPdu_bytes data = Err StopIteration)).
Proof. exact deliver_septets. Qed.
Print Assumptions C109_message.
Theorem C109_cut : forall smsc smscf first oa oaf pid dcs t q s v,
  std_smsc smsc smscf -> 0 <= first < 256 -> mti first = 0 -> udhi first = false -> std_address oa oaf -> type_of_number (nth 1 oaf 0) <> 5 ->
  in_octet pid -> in_octet dcs -> ts23038_alphabet dcs = 0 -> sms_time t q -> septets_ok s -> cut_escape s -> septet_stream 0 s v -> len s <= 255 ->
  decodeSmsPdu_bytes (deliver_octets smscf first oaf pid dcs (timestamp_of t q) (len s) v) = Err StopIteration.
Proof. exact deliver_cut. Qed.
Print Assumptions C109_cut.
(** "a", an escape to 'b' (not in the extension table), "c": the standard's
    reader shows "abc", this one "ac"; with the escape last there is an exception *)
Example C109_example :
  std_reading [97; 27; 98; 99] (lit "abc") /\ decodeGsm7 [97; 27; 98; 99] = Ok (lit "ac") /\ ~ same_reading [97; 27; 98; 99] /\
  std_reading [97; 27; 0x65] (97 :: [0x20AC]) /\ decodeGsm7 [97; 27; 0x65] = Ok (97 :: [0x20AC]) /\ same_reading [97; 27; 0x65] /\
  cut_escape [97; 27] /\ septet_stream 0 [97; 27] [0xE1; 0x0D] /\
  decodeSmsPdu_bytes (deliver_octets [0] 0 [1; 0x81; 0xF1] 0 0 [0x11; 0x10; 0x11; 0x71; 0x95; 0x51; 0x40] 2 [0xE1; 0x0D]) = Err StopIteration.
Proof.
  assert (S : std_reading [97; 27; 98; 99] (lit "abc")).
  { apply (sr_basic 97); [reflexivity|]. apply (sr_unknown 98); [intros c' H; cbn in H; repeat (destruct H as [H|H]; [discriminate|]); tauto|reflexivity|]. apply (sr_basic 99); [reflexivity|constructor]. }
  split; [exact S|]. split; [reflexivity|]. split; [rewrite <- (readings_agree _ _ S); vm_compute; discriminate|].
  split; [apply (sr_basic 97); [reflexivity|]; apply sr_ext; [cbn; tauto|constructor]|]. split; [reflexivity|].
  split; [apply sa_basic; [lia|lia|]; eapply (sa_ext _ 0x20AC); [cbn; tauto|lia|constructor]|].
  split; [apply ce_basic; [lia|constructor]|]. split; [|reflexivity].
  split; [repeat constructor; lia|]. split; [unfold len; cbn [length]; lia|]. intros k Hk. destruct (Z.ltb_spec k 0); [lia|]. replace (k - 0) with k by lia.
  destruct (Z.ltb_spec k 16).
  - assert (F : forallb (fun k => Bool.eqb (bit 8 [0xE1; 0x0D] k) (bit 7 [97; 27] k)) (map Z.of_nat (seq 0 16)) = true) by (vm_compute; reflexivity).
    rewrite forallb_forall in F. apply Bool.eqb_prop, F. apply in_map_iff. exists (Z.to_nat k). split; [lia|]. apply in_seq. lia.
  - unfold bit. assert (2 <= k / 8) by (apply Z.div_le_lower_bound; lia). assert (2 <= k / 7) by (apply Z.div_le_lower_bound; lia).
    rewrite !nth_overflow by (cbn [length]; lia). rewrite !Z.testbit_0_l. reflexivity.
Qed.

(** C110: octets behind the user data. *)
Theorem C110_octets : forall smsc smscf first oa oaf pid dcs t q udl ud,
  std_smsc smsc smscf -> 0 <= first < 256 -> mti first = 0 -> udhi first = false -> std_address oa oaf -> type_of_number (nth 1 oaf 0) <> 5 ->
  in_octet pid -> 0 <= dcs < 64 -> ts23038_alphabet dcs = 1 -> sms_time t q -> in_octet udl -> octets_ok ud ->
  let data := deliver_octets smscf first oaf pid dcs (timestamp_of t q) udl ud in
  decodeSmsPdu_bytes data = Ok (mk_sms smsc (len data - len smscf) (SmsDeliver (Some oa) pid t None ud)).
Proof. exact trailing_octets. Qed.
Print Assumptions C110_octets.
Theorem C110_ucs2 : forall smsc smscf first oa oaf pid dcs t q es hdr text hidden more,
  std_smsc smsc smscf -> 0 <= first < 256 -> mti first = 0 -> std_address oa oaf -> type_of_number (nth 1 oaf 0) <> 5 ->
  in_octet pid -> 0 <= dcs < 64 -> ts23038_alphabet dcs = 2 -> sms_time t q -> header_of first es hdr -> bmp text -> bmp hidden ->
  len hdr + 2 * len text <= 255 -> len hdr <= 2 * len hidden <= len hdr + 1 -> octets_ok more ->
  exists udh, match es, udh with None, None => True | Some l, Some os => Forall2 element_object l os | _, _ => False end /\
    let data := deliver_octets smscf first oaf pid dcs (timestamp_of t q) (len hdr + 2 * len text) (hdr ++ ucs2_be text ++ ucs2_be hidden ++ more) in
    decodeSmsPdu_bytes data = Ok (mk_sms smsc (len data - len smscf) (SmsDeliver (Some oa) pid t udh (text ++ hidden))).
Proof. exact trailing_ucs2. Qed.
Print Assumptions C110_ucs2.
Theorem C110_septets : forall smsc smscf first oa oaf pid dcs t q s v text more,
  std_smsc smsc smscf -> 0 <= first < 256 -> mti first = 0 -> udhi first = false -> std_address oa oaf -> type_of_number (nth 1 oaf 0) <> 5 ->
  in_octet pid -> in_octet dcs -> ts23038_alphabet dcs = 0 -> sms_time t q -> septets_ok s -> lib_reading s text -> septet_stream 0 s v -> len s <= 255 ->
  8 <= len s -> octets_ok more -> more <> [] ->
  let taken := firstn (Z.to_nat (len s)) (v ++ more) in
  exists extra, extra <> [] /\ septets_ok extra /\
    (forall k, 0 <= k < 7 * len extra -> bit 7 extra k = bit 8 (v ++ more) (7 * len s + k)) /\
    len s + len extra = len taken + (len taken - 1) / 7 + (if (len taken mod 7 =? 0) && negb (last taken 0 / 2 =? 0) then 1 else 0) /\
    let data := deliver_octets smscf first oaf pid dcs (timestamp_of t q) (len s) (v ++ more) in
    ((exists rest, lib_reading extra rest /\ decodeSmsPdu_bytes data = Ok (mk_sms smsc (len data - len smscf) (SmsDeliver (Some oa) pid t None (text ++ rest)))) \/
     (cut_escape extra /\ decodeSmsPdu_bytes data = Err StopIteration)).
Proof. exact trailing_septets. Qed.
Print Assumptions C110_septets.
Theorem C110_short_text : forall smsc smscf first oa oaf pid dcs t q s v text more,
  std_smsc smsc smscf -> 0 <= first < 256 -> mti first = 0 -> udhi first = false -> std_address oa oaf -> type_of_number (nth 1 oaf 0) <> 5 ->
  in_octet pid -> in_octet dcs -> ts23038_alphabet dcs = 0 -> sms_time t q -> septets_ok s -> s <> [] -> lib_reading s text -> septet_stream 0 s v ->
  len s <= 7 -> octets_ok more ->
  let data := deliver_octets smscf first oaf pid dcs (timestamp_of t q) (len s) (v ++ more) in
  decodeSmsPdu_bytes data = Ok (mk_sms smsc (len data - len smscf) (SmsDeliver (Some oa) pid t None text)).
Proof. exact trailing_short. Qed.
Print Assumptions C110_short_text.
(** the octets 1 and 2 behind three texts: nine letters of the default alphabet in
    eight octets, one octet, and "A" in UCS-2 behind a header of five octets (and
    then the octets 0 66 0 67 0 68 0 69) *)
Definition text_with (first dcs udl : Z) (ud : list Z) : option str :=
  match decodeSmsPdu_bytes (deliver_octets [0] first [1; 0x81; 0xF1] 0 dcs [0x11; 0x10; 0x11; 0x71; 0x95; 0x51; 0x40] udl ud) with Ok s => text_of_sms s | Err _ => None end.
Example C110_example :
  text_with 0 0 9 [0x61; 0xF1; 0x98; 0x5C; 0x36; 0x9F; 0xD1; 0x69] = Some (lit "abcdefghi") /\
  text_with 0 0 9 ([0x61; 0xF1; 0x98; 0x5C; 0x36; 0x9F; 0xD1; 0x69] ++ [1; 2]) = Some (lit "abcdefghi$") /\
  text_with 0 0 2 ([0xE8; 0x34] ++ [1; 2]) = Some (lit "hi") /\
  text_with 0 4 1 [7] = Some [7] /\ text_with 0 4 1 ([7] ++ [1; 2]) = Some [7; 1; 2] /\
  text_with 0x40 8 7 ([4; 0x70; 2; 1; 1] ++ [0; 65]) = Some (lit "A") /\
  text_with 0x40 8 7 ([4; 0x70; 2; 1; 1] ++ [0; 65] ++ [0; 66; 0; 67; 0; 68; 0; 69]) = Some (lit "ABCD").
Proof. vm_compute. repeat split; reflexivity. Qed.

