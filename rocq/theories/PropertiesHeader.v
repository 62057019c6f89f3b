(** Property C115: what a user data header says about the text, and headers that do
    not fit. *)
From Verif Require Import Base DateModel PduModel PduSpec SmsSpec DeliverSpec SubmitSpec CodingSpec HeaderSpec HeaderProofs.

Theorem C115_ignored : forall smsc smscf first oa oaf pid dcs t q udl es1 es2 rest,
  std_smsc smsc smscf -> 0 <= first < 256 -> mti first = 0 -> udhi first = true -> std_address oa oaf -> type_of_number (nth 1 oaf 0) <> 5 ->
  in_octet pid -> in_octet dcs -> sms_time t q -> in_octet udl -> header_ok es1 -> header_ok es2 -> len (header_octets es1) = len (header_octets es2) -> octets_ok rest ->
  drop_header (decodeSmsPdu_bytes (deliver_octets smscf first oaf pid dcs (timestamp_of t q) udl (header_octets es1 ++ rest))) =
  drop_header (decodeSmsPdu_bytes (deliver_octets smscf first oaf pid dcs (timestamp_of t q) udl (header_octets es2 ++ rest))).
Proof. exact elements_ignored. Qed.
Print Assumptions C115_ignored.
Theorem C115_default_only : forall smsc smscf first oa oaf pid dcs t q udl ud m text,
  std_smsc smsc smscf -> 0 <= first < 256 -> mti first = 0 -> std_address oa oaf -> type_of_number (nth 1 oaf 0) <> 5 ->
  in_octet pid -> in_octet dcs -> ts23038_alphabet dcs = 0 -> sms_time t q -> in_octet udl -> octets_ok ud ->
  decodeSmsPdu_bytes (deliver_octets smscf first oaf pid dcs (timestamp_of t q) udl ud) = Ok m -> text_of_sms m = Some text ->
  Forall default_char text.
Proof. exact default_only. Qed.
Print Assumptions C115_default_only.
Theorem C115_tables : forall basic ext s t,
  reading_with basic ext s t -> (decodeGsm7 s = Ok t <-> default_reading s t).
Proof. exact tables_agree. Qed.
Print Assumptions C115_tables.
Theorem C115_septets : forall smsc smscf first oa oaf pid dcs t q es s v udl,
  std_smsc smsc smscf -> 0 <= first < 256 -> mti first = 0 -> udhi first = true -> std_address oa oaf -> type_of_number (nth 1 oaf 0) <> 5 ->
  in_octet pid -> in_octet dcs -> ts23038_alphabet dcs = 0 -> sms_time t q -> header_ok es -> septets_ok s -> s <> [] ->
  let h := len (header_octets es) in
  septet_stream (fill_bits h) s v -> udl = (8 * h + fill_bits h) / 7 + len s -> udl <= 255 ->
  exists s' os, septets_after h s s' /\ Forall2 element_object es os /\
    let data := deliver_octets smscf first oaf pid dcs (timestamp_of t q) udl (header_octets es ++ v) in
    ((exists text, lib_reading s' text /\ decodeSmsPdu_bytes data = Ok (mk_sms smsc (len data - len smscf) (SmsDeliver (Some oa) pid t (Some os) text))) \/
     (cut_escape s' /\ decodeSmsPdu_bytes data = Err StopIteration)).
Proof. exact header_septets. Qed.
Print Assumptions C115_septets.
(** "a", Turkish g with breve, "b" with the Turkish single shift table: "ab" is
    read.  With the Turkish locking shift table code 7 is a dotless i: an i with
    grave is read. *)
Definition header_result (dcs udl : Z) (ud : list Z) : res (option str) :=
  let* m := decodeSmsPdu_bytes (deliver_octets [0] 0x40 [1; 0x81; 0xF1] 0 dcs [0x11; 0x10; 0x11; 0x71; 0x95; 0x51; 0x40] udl ud) in Ok (text_of_sms m).
Example C115_example :
  header_ok [single_shift 1] /\ header_octets [single_shift 1] = [3; 0x24; 1; 1] /\
  reading_with ts23038_basic turkish_ext [97; 27; 0x67; 98] [97; 0x11F; 98] /\ ~ default_reading [97; 27; 0x67; 98] [97; 0x11F; 98] /\
  septet_stream 3 [97; 27; 0x67; 98] [0x08; 0x6F; 0xCE; 0x62] /\
  header_result 0 9 (header_octets [single_shift 1] ++ [0x08; 0x6F; 0xCE; 0x62]) = Ok (Some (lit "ab")) /\
  header_result 0 9 (header_octets [mk_element 0x70 [7]] ++ [0x08; 0x6F; 0xCE; 0x62]) = Ok (Some (lit "ab")) /\
  reading_with turkish_basic ts23038_ext [7; 98] [0x131; 98] /\ ~ default_reading [7; 98] [0x131; 98] /\
  header_result 0 7 (header_octets [locking_shift 1] ++ [0x38; 0x88; 0x01]) = Ok (Some [0xEC; 98]).
Proof.
  assert (R1 : reading_with ts23038_basic turkish_ext [97; 27; 0x67; 98] [97; 0x11F; 98]).
  { apply (rw_basic _ _ 97); [lia|reflexivity|]. apply rw_ext; [vm_compute; tauto|]. apply (rw_basic _ _ 98); [lia|reflexivity|constructor]. }
  assert (R2 : reading_with turkish_basic ts23038_ext [7; 98] [0x131; 98]).
  { apply (rw_basic _ _ 7); [lia|reflexivity|]. apply (rw_basic _ _ 98); [lia|reflexivity|constructor]. }
  split. { split; [constructor; [|constructor]|unfold len; cbn; lia]. unfold element_ok, in_octet, octets_ok, len. cbn. repeat split; try lia. repeat constructor; lia. }
  split; [reflexivity|]. split; [exact R1|]. split; [rewrite <- (tables_agree _ _ _ _ R1); vm_compute; discriminate|]. split.
  - split; [repeat constructor; lia|]. split; [unfold len; cbn [length]; lia|]. intros k Hk. destruct (Z.ltb_spec k 32).
    + assert (F : forallb (fun k => Bool.eqb (bit 8 [0x08; 0x6F; 0xCE; 0x62] k) (if k <? 3 then false else bit 7 [97; 27; 0x67; 98] (k - 3))) (map Z.of_nat (seq 0 32)) = true) by (vm_compute; reflexivity).
      rewrite forallb_forall in F. apply Bool.eqb_prop. apply (F k). apply in_map_iff. exists (Z.to_nat k). split; [lia|apply in_seq; lia].
    + destruct (Z.ltb_spec k 3); [lia|]. unfold bit. assert (4 <= k / 8) by (apply Z.div_le_lower_bound; lia). assert (4 <= (k - 3) / 7) by (apply Z.div_le_lower_bound; lia).
      rewrite !nth_overflow by (cbn [length]; lia). rewrite !Z.testbit_0_l. reflexivity.
  - split; [reflexivity|]. split; [reflexivity|]. split; [exact R2|]. split; [rewrite <- (tables_agree _ _ _ _ R2); vm_compute; discriminate|reflexivity].
Qed.

Theorem C115_overrun_octets : forall smsc smscf first oa oaf pid dcs t q udl u es e rest,
  std_smsc smsc smscf -> 0 <= first < 256 -> mti first = 0 -> udhi first = true -> std_address oa oaf -> type_of_number (nth 1 oaf 0) <> 5 ->
  in_octet pid -> 0 <= dcs < 64 -> ts23038_alphabet dcs = 1 -> sms_time t q -> in_octet udl ->
  Forall element_ok es -> element_ok e -> in_octet u -> len (body_octets es) < u < len (body_octets es) + len (element_octets e) -> octets_ok rest ->
  let ud := u :: body_octets es ++ element_octets e ++ rest in
  exists os lost, Forall2 element_object (es ++ [e]) os /\ lost <> [] /\ skipn (Z.to_nat (1 + u)) ud = lost ++ rest /\
    let data := deliver_octets smscf first oaf pid dcs (timestamp_of t q) udl ud in
    decodeSmsPdu_bytes data = Ok (mk_sms smsc (len data - len smscf) (SmsDeliver (Some oa) pid t (Some os) rest)).
Proof. exact overrun_octets. Qed.
Print Assumptions C115_overrun_octets.
Theorem C115_overrun_ucs2 : forall smsc smscf first oa oaf pid dcs t q udl u es e text,
  std_smsc smsc smscf -> 0 <= first < 256 -> mti first = 0 -> udhi first = true -> std_address oa oaf -> type_of_number (nth 1 oaf 0) <> 5 ->
  in_octet pid -> 0 <= dcs < 64 -> ts23038_alphabet dcs = 2 -> sms_time t q -> in_octet udl ->
  Forall element_ok es -> element_ok e -> in_octet u -> len (body_octets es) < u < len (body_octets es) + len (element_octets e) -> bmp text -> 2 * len text <= udl ->
  let ud := u :: body_octets es ++ element_octets e ++ ucs2_be text in
  exists os lost, Forall2 element_object (es ++ [e]) os /\ lost <> [] /\ skipn (Z.to_nat (1 + u)) ud = lost ++ ucs2_be text /\
    let data := deliver_octets smscf first oaf pid dcs (timestamp_of t q) udl ud in
    decodeSmsPdu_bytes data = Ok (mk_sms smsc (len data - len smscf) (SmsDeliver (Some oa) pid t (Some os) text)).
Proof. exact overrun_ucs2. Qed.
Print Assumptions C115_overrun_ucs2.
Theorem C115_cut : forall smsc smscf first oa oaf pid dcs t q udl u es e frag more,
  std_smsc smsc smscf -> 0 <= first < 256 -> mti first = 0 -> udhi first = true -> std_address oa oaf -> type_of_number (nth 1 oaf 0) <> 5 ->
  in_octet pid -> in_octet dcs -> sms_time t q -> in_octet udl ->
  Forall element_ok es -> element_ok e -> element_octets e = frag ++ more -> more <> [] -> in_octet u -> len (body_octets es) < u ->
  decodeSmsPdu_bytes (deliver_octets smscf first oaf pid dcs (timestamp_of t q) udl (u :: body_octets es ++ frag)) = Err StopIteration.
Proof. exact cut_header. Qed.
Print Assumptions C115_cut.
Theorem C115_wrong_length : forall smsc smscf first oa oaf pid dcs t q udl u es e rest x,
  std_smsc smsc smscf -> 0 <= first < 256 -> mti first = 0 -> udhi first = true -> std_address oa oaf -> type_of_number (nth 1 oaf 0) <> 5 ->
  in_octet pid -> in_octet dcs -> sms_time t q -> in_octet udl ->
  Forall element_ok es -> octets_ok (element_octets e) -> element_exception e = Some x -> in_octet u -> len (body_octets es) < u -> octets_ok rest ->
  decodeSmsPdu_bytes (deliver_octets smscf first oaf pid dcs (timestamp_of t q) udl (u :: body_octets es ++ element_octets e ++ rest)) = Err x.
Proof. exact wrong_length. Qed.
Print Assumptions C115_wrong_length.
Theorem C115_longer : forall smsc smscf first oa oaf pid dcs t q udl es rest,
  std_smsc smsc smscf -> 0 <= first < 256 -> mti first = 0 -> udhi first = true -> std_address oa oaf -> type_of_number (nth 1 oaf 0) <> 5 ->
  in_octet pid -> 0 <= dcs < 64 -> ts23038_alphabet dcs = 1 -> sms_time t q -> in_octet udl -> Forall element_read es -> len (header_octets es) <= 256 -> octets_ok rest ->
  exists os, Forall2 element_object es os /\
    let data := deliver_octets smscf first oaf pid dcs (timestamp_of t q) udl (header_octets es ++ rest) in
    decodeSmsPdu_bytes data = Ok (mk_sms smsc (len data - len smscf) (SmsDeliver (Some oa) pid t (Some os) rest)).
Proof. exact read_elements. Qed.
Print Assumptions C115_longer.
(** a header of three octets with an element of four: its last octet is not given
    back to the text; a message that ends inside the element; a concatenation
    element with two octets, and one with five *)
Example C115_misfit :
  header_result 4 9 ([3] ++ element_octets (mk_element 0x70 [1; 2]) ++ [0x41; 0x42]) = Ok (Some (lit "AB")) /\
  header_result 8 9 ([3] ++ element_octets (mk_element 0x70 [1; 2]) ++ [0; 0x41; 0; 0x42]) = Ok (Some (lit "AB")) /\
  header_result 8 9 [3; 0x70; 2; 1] = Err StopIteration /\
  element_exception (mk_element 0 [1; 2]) = Some ValueError /\
  header_result 0 9 ([4] ++ element_octets (mk_element 0 [1; 2]) ++ [0xE8; 0x34]) = Err ValueError /\
  element_exception (mk_element 5 [1; 2]) = Some IndexError /\
  header_result 0 9 ([4] ++ element_octets (mk_element 5 [1; 2]) ++ [0xE8; 0x34]) = Err IndexError /\
  element_exception (mk_element 8 [1; 2; 3; 4; 5]) = None /\
  header_result 4 9 (header_octets [mk_element 8 [1; 2; 3; 4; 5]] ++ [0x41]) = Ok (Some (lit "A")).
Proof. vm_compute. repeat split; reflexivity. Qed.
