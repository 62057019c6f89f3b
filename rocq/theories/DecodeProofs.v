(** Proofs about decodeSmsPdu on PDUs laid out by the network, and on arbitrary
    input. *)
From Verif Require Import Base PduModel PduSpec SmsSpec DeliverSpec SeptetProofs Gsm7Proofs FieldProofs TimeProofs AddressProofs SubmitProofs.
From Coq Require Import ZifyBool.
Ltac Zify.zify_post_hook ::= Z.div_mod_to_equations.

(** ** Septets after a header that ends on a septet boundary *)
Lemma unpack_stream_hdr0 s0 s p o n : septets_ok (s0 :: s) -> stream_val 0 (s0 :: s) (p :: o) ->
  len o < n -> unpackSeptets o (Some n) (Some p) 1 = Ok (lossy 7 s, []).
Proof.
  intros Hs (Ho & HL & Hv) Hn. inversion Ho; subst. inversion Hs; subst.
  pose proof (len_nonneg o).
  destruct (unpack_loop_spec o H2 (Some n) 0 (Some p) 1) as (out & E & H0);
    try discriminate; try lia; try congruence.
  cbv zeta in *. rewrite firstn_all2 in H0 by (unfold len in *; lia).
  rewrite skipn_all2 in E by (unfold len in *; lia).
  unfold unpackSeptets. rewrite E. f_equal. f_equal.
  cbn [pending pending_bits] in H0. rewrite !len_cons in *.
  eapply unpack_result_unique; [eassumption|exact H0| |lia|lia].
  rewrite Z.shiftr_div_pow2 by lia. cbn [vle] in Hv. rewrite Z.pow_0_r, Z.mul_1_l in Hv.
  change (2 ^ (8 - 1)) with 128. change (2 ^ 1) with 2.
  set (V := vle 256 o) in *. set (S := vle 128 s) in *. clearbody V S. lia.
Qed.

(** ** Headers *)
Lemma read_n_app l rest : read_n (length l) (l ++ rest) = Ok (l, rest).
Proof. induction l as [|x l IH]; [reflexivity|]. cbn [length read_n app next bind]. rewrite IH. reflexivity. Qed.

Lemma shl8_or a b : 0 <= a < 256 -> 0 <= b < 256 -> Z.lor (Z.shiftl a 8) b = 256 * a + b.
Proof.
  intros Ha Hb. rewrite Z.shiftl_mul_pow2 by lia. change (2 ^ 8) with 256.
  rewrite (lor_add (a * 256) b 8); [lia|lia| |change (2 ^ 8) with 256; lia].
  change (2 ^ 8) with 256. apply Z_mod_mult.
Qed.

Lemma ie_decode_element e rest : element_ok e ->
  exists o, ie_decode (element_octets e ++ rest) = Ok (o, rest) /\ element_object e o /\
    ie_len o = len (element_octets e).
Proof.
  intros (Hi & Hd & Hl & H0 & H8 & H4 & H5). destruct e as [id data]. cbn [el_id el_data] in *.
  unfold ie_decode, element_octets. cbn [el_id el_data app next bind].
  replace (Z.to_nat (len data)) with (length data) by (unfold len; lia).
  rewrite read_n_app. cbn [bind]. unfold mk_InformationElement, element_object. cbn [el_id el_data].
  assert (Hlen : forall sp, ie_len (mk_ie id (len data) data sp) = len (id :: len data :: data))
    by (intro; unfold ie_len; cbn [ie_dataLength]; rewrite !len_cons; lia).
  destruct (Z.eqb_spec id 0) as [E|E].
  - specialize (H0 E). destruct data as [|a [|b [|c [|x data]]]]; try (unfold len in H0; cbn [length] in H0; lia).
    cbn [bind]. eexists. split; [reflexivity|]. split; [auto|apply Hlen].
  - destruct (Z.eqb_spec id 8) as [E8|E8].
    + specialize (H8 E8). destruct data as [|a [|b [|c [|d [|x data]]]]]; try (unfold len in H8; cbn [length] in H8; lia).
      cbn [bind]. eexists. split; [reflexivity|]. split; [|apply Hlen].
      inversion Hd as [|? ? Ha Hd1]; inversion Hd1 as [|? ? Hb _]; subst.
      unfold word. cbn [nth]. rewrite shl8_or by auto. auto.
    + destruct (Z.eqb_spec id 4) as [E4|E4].
      * specialize (H4 E4). destruct data as [|a [|b [|x data]]]; try (unfold len in H4; cbn [length] in H4; lia).
        cbn [bind]. eexists. split; [reflexivity|]. split; [auto|apply Hlen].
      * destruct (Z.eqb_spec id 5) as [E5|E5].
        -- specialize (H5 E5). destruct data as [|a [|b [|c [|d [|x data]]]]]; try (unfold len in H5; cbn [length] in H5; lia).
           cbn [bind]. eexists. split; [reflexivity|]. split; [|apply Hlen].
           inversion Hd as [|? ? Ha Hd1]; inversion Hd1 as [|? ? Hb Hd2]; inversion Hd2 as [|? ? Hc Hd3]; inversion Hd3 as [|? ? Hdd _]; subst.
           unfold word. cbn [nth]. rewrite !shl8_or by auto. auto.
        -- cbn [bind]. eexists. split; [reflexivity|]. split; [auto|apply Hlen].
Qed.

Lemma decode_udh_elements es : Forall element_ok es -> forall fuel r u rest,
  (length es < fuel)%nat -> u = r + len (List.concat (map element_octets es)) ->
  exists os, decode_udh fuel (List.concat (map element_octets es) ++ rest) r u = Ok (os, rest) /\
    Forall2 element_object es os.
Proof.
  induction 1 as [|e es He Hes IH]; intros fuel r u rest Hf Hu.
  - cbn [map List.concat app] in *. rewrite len_nil in Hu. exists []. split; [|constructor].
    destruct fuel; cbn [decode_udh]; replace (r <? u) with false by lia; reflexivity.
  - cbn [map List.concat] in *. rewrite len_app in Hu.
    assert (2 <= len (element_octets e)) by (unfold element_octets; rewrite !len_cons; pose proof (len_nonneg (el_data e)); lia).
    pose proof (len_nonneg (List.concat (map element_octets es))).
    destruct fuel as [|fuel]; [cbn [length] in Hf; lia|]. cbn [decode_udh].
    replace (r <? u) with true by lia. rewrite <- app_assoc.
    destruct (ie_decode_element e (List.concat (map element_octets es) ++ rest) He) as (o & -> & Ho & Hlen). cbn [bind].
    destruct (IH fuel (r + ie_len o) u rest) as (os & -> & Hos); [cbn [length] in Hf; lia|lia|].
    cbn [bind]. exists (o :: os). split; auto.
Qed.

Lemma elements_count es : (length es <= length (List.concat (map element_octets es)))%nat.
Proof. induction es as [|e es IH]; [auto|]. cbn [map List.concat length]. rewrite app_length. unfold element_octets at 1. cbn [length]. lia. Qed.

(** the header part of _decodeUserData *)
Definition udh_part (present : bool) (it : list Z) : res (option (list ie) * Z * list Z) :=
  if present then
      let* (udhLen, it) := next it in
      let* (ies, it) := decode_udh (S (length it)) it 0 udhLen in
      Ok (Some ies, udhLen, it)
    else Ok (None, 0, it).

Lemma udh_part_ok first es hdr rest : header_of first es hdr ->
  exists udh, udh_part (udhi first) (hdr ++ rest) = Ok (udh, match es with None => 0 | Some _ => len hdr - 1 end, rest) /\
    match es, udh with None, None => True | Some l, Some os => Forall2 element_object l os | _, _ => False end.
Proof.
  unfold udh_part. destruct es as [l|]; cbn [header_of].
  - intros (-> & (Hl & Hlen) & ->). unfold header_octets. cbn [app next bind].
    destruct (decode_udh_elements l Hl (S (length (List.concat (map element_octets l) ++ rest))) 0
                (len (List.concat (map element_octets l))) rest) as (os & -> & Hos).
    + rewrite app_length. pose proof (elements_count l). lia.
    + lia.
    + cbn [bind]. exists (Some os). split; auto. rewrite len_cons.
      replace (len (List.concat (map element_octets l)) + 1 - 1) with (len (List.concat (map element_octets l))) by lia. reflexivity.
  - intros (-> & ->). exists None. split; auto.
Qed.

(** ** Standard texts *)
Lemma std_tail t s : std_text t s -> t <> [] -> ~ In 0xA7 t -> ~ In 0x0C t ->
  exists u, std_text u (tl s) /\ ~ In 0xA7 u /\ ~ In 0x0C u.
Proof.
  intros H Hne K1 K2. destruct H as [|c s t r Hc Ht]; [congruence|]. cbn [In] in K1, K2.
  destruct Hc as [c i Hi|c p Hp].
  - exists t. cbn [app tl]. tauto.
  - assert (forallb (fun pc => (snd pc =? 0x0C) ||
        match nth_error ts23038_basic (Z.to_nat (fst pc)) with
        | Some (Some c') => (0 <=? fst pc) && negb (c' =? 0xA7) && negb (c' =? 0x0C) | _ => false end) ts23038_ext = true) as F
      by (vm_compute; reflexivity).
    rewrite forallb_forall in F. specialize (F _ Hp). cbn [fst snd] in F.
    replace (c =? 0x0C) with false in F by (symmetry; apply Z.eqb_neq; intros ->; tauto). cbn [orb] in F.
    destruct (nth_error ts23038_basic (Z.to_nat p)) as [[c'|]|] eqn:E; try discriminate.
    exists (c' :: t). cbn [app tl]. apply std_basic in E. split.
    + replace p with (Z.of_nat (Z.to_nat p)) by lia. apply (std_cons c' [Z.of_nat (Z.to_nat p)]); auto.
    + cbn [In]. split; intros [->|]; try tauto; cbn in F; lia.
Qed.

Lemma std_nonempty t s : std_text t s -> t <> [] -> s <> [].
Proof. destruct 1 as [|c s t r Hc Ht]; [congruence|]. intros _. destruct Hc; discriminate. Qed.

(** ** User data *)
Lemma fill_range h : 0 <= fill_bits h <= 6.
Proof. unfold fill_bits. lia. Qed.

Lemma decode_user_data first es hdr alphabet t udl ud : header_of first es hdr ->
  sent_text alphabet hdr t udl ud ->
  (alphabet = 0 -> t <> [] /\ ~ In 0xA7 t /\ ~ In 0x0C t) ->
  exists udh t', decodeUserData ud udl alphabet (udhi first) = Ok (udh, t') /\
    match es, udh with None, None => True | Some l, Some os => Forall2 element_object l os | _, _ => False end /\
    text_read alphabet hdr t t'.
Proof.
  intros Hh Hs Ht. unfold decodeUserData.
  change (if udhi first then let* (udhLen, it) := next ud in
      let* (ies, it) := decode_udh (S (length it)) it 0 udhLen in Ok (Some ies, udhLen, it)
    else Ok (None, 0, ud)) with (udh_part (udhi first) ud).
  destruct Hs as [hdr t s v Hst Hv|hdr t Ho|hdr t Hb].
  - (* GSM-7 *)
    destruct (Ht eq_refl) as (Hne & K1 & K2).
    destruct (std_text_encode t s Hst K1 K2) as [E Hesc]. pose proof (std_text_septets _ _ Hst) as Hss.
    pose proof (std_nonempty _ _ Hst Hne) as Hsne.
    pose proof (fill_range (len hdr)) as Hfr.
    apply stream_val_spec in Hv; auto; try lia.
    destruct (udh_part_ok first es hdr v Hh) as (udh & -> & Hudh). cbn [bind].
    change (0 =? 0) with true. cbv iota.
    destruct es as [l|]; cbn [header_of] in Hh.
    + destruct Hh as (-> & Hok & Eh). cbv iota. 
      assert (Hlh : 1 <= len hdr) by (rewrite Eh; unfold header_octets; rewrite len_cons; pose proof (len_nonneg (List.concat (map element_octets l))); lia).
      assert (Hhn : hdr <> []) by (intros ->; rewrite (@len_nil Z) in Hlh; lia).
      destruct v as [|p o].
      { destruct Hv as (_ & HL & _). rewrite (@len_nil Z) in HL. destruct s; [congruence|]. rewrite len_cons in HL. pose proof (len_nonneg s). lia. }
      cbn [next bind].
      replace ((len hdr - 1 + 1) * 8) with (8 * len hdr) by lia.
      assert (Hshift : (8 * len hdr) mod 7 + 1 = if fill_bits (len hdr) =? 0 then 1 else 8 - fill_bits (len hdr)).
      { unfold fill_bits. destruct (Z.eqb_spec (- (8 * len hdr) mod 7) 0); lia. }
      rewrite Hshift.
      assert (Hn : len o < (8 * len hdr + fill_bits (len hdr)) / 7 + len s).
      { destruct Hv as (_ & HL & _). rewrite len_cons in HL. pose proof (len_nonneg s). lia. }
      destruct (Z.eqb_spec (fill_bits (len hdr)) 0) as [F0|F0].
      * rewrite F0 in Hv. destruct s as [|s0 s]; [congruence|].
        rewrite (unpack_stream_hdr0 s0 s p o _ Hss Hv Hn). cbn [bind].
        destruct (std_tail _ _ Hst Hne K1 K2) as (u & Hu & K1' & K2'). cbn [tl] in Hu.
        destruct (std_text_encode u s Hu K1' K2') as [E' Hesc'].
        destruct u as [|c1 u].
        -- inversion Hu; subst s. cbn. exists udh, []. split; [reflexivity|]. split; auto.
           apply (read_gsm7_first 0 hdr _ [s0] [] _ eq_refl Hhn F0); auto.
        -- destruct (decode_lossy 7 (c1 :: u) s E' ltac:(discriminate) Hesc') as (t' & D & R).
           rewrite D. cbn [bind]. exists udh, t'. split; auto. split; auto.
           apply (read_gsm7_first 0 hdr _ (s0 :: s) (c1 :: u) _ eq_refl Hhn F0); auto.
      * assert (Hf1 : 1 <= fill_bits (len hdr) <= 6) by (clear - Hfr F0; lia).
        rewrite (unpack_stream_fill s p o (fill_bits (len hdr)) _ Hss Hf1 Hv Hn). cbn [bind].
        destruct (decode_lossy (fill_bits (len hdr)) t s E Hne Hesc) as (t' & D & R). rewrite D. cbn [bind].
        exists udh, t'. split; auto. split; auto. apply read_gsm7; auto.
    + destruct Hh as (-> & ->). cbv iota. cbn [bind]. change (len (@nil Z)) with 0 in *. change (fill_bits 0) with 0 in *.
      change ((8 * 0 + 0) / 7 + len s) with (len s).
      rewrite (unpack_stream0 s v (Some (len s))); auto.
      * cbn [bind]. destruct (decode_lossy 0 t s E Hne Hesc) as (t' & D & R). rewrite D. cbn [bind].
        exists udh, t'. split; auto. split; auto. apply read_gsm7; auto.
      * destruct Hv as (_ & HL & _). pose proof (len_nonneg s). lia.
  - destruct (udh_part_ok first es hdr t Hh) as (udh & -> & Hudh). cbn [bind].
    change (1 =? 0) with false. change (1 =? 2) with false. cbv iota.
    exists udh, t. split; auto. split; auto. apply read_octets. lia.
  - destruct (udh_part_ok first es hdr (ucs2_be t) Hh) as (udh & -> & Hudh). cbn [bind].
    change (2 =? 0) with false. change (2 =? 2) with true. cbv iota. unfold decodeUcs2.
    rewrite <- (app_nil_r (ucs2_be t)). rewrite (decodeUcs2_ok t [] Hb).
    + exists udh, t. split; auto. split; auto. apply read_octets. lia.
    + right. split; auto. pose proof (len_nonneg hdr). lia.
Qed.

(** ** First octets *)
Lemma octet_in x : 0 <= x < 256 -> In x (map Z.of_nat (seq 0 256)).
Proof. intro H. apply in_map_iff. exists (Z.to_nat x). split; [lia|apply in_seq; lia]. Qed.
Lemma first_bits x : 0 <= x < 256 -> Z.land x 3 = mti x /\ negb (Z.land x 64 =? 0) = udhi x.
Proof.
  intro H.
  assert (forallb (fun x => (Z.land x 3 =? x mod 4) && Bool.eqb (negb (Z.land x 64 =? 0)) (Z.odd (x / 64))) (map Z.of_nat (seq 0 256)) = true) as F
    by (vm_compute; reflexivity).
  rewrite forallb_forall in F. specialize (F x (octet_in x H)). apply andb_true_iff in F as [F1 F2].
  apply Bool.eqb_prop in F2. unfold mti, udhi. split; [lia|auto].
Qed.
Lemma general_dcs_decode dcs a : general_dcs dcs a -> decodeDataCoding dcs = a.
Proof.
  intros [H <-].
  assert (forallb (fun x => decodeDataCoding x =? (x / 4) mod 4) (map Z.of_nat (seq 0 64)) = true) as F by (vm_compute; reflexivity).
  rewrite forallb_forall in F. specialize (F dcs).
  assert (In dcs (map Z.of_nat (seq 0 64))) as I by (apply in_map_iff; exists (Z.to_nat dcs); split; [lia|apply in_seq; lia]).
  specialize (F I). lia.
Qed.

Lemma decode_std_smsc smsc o tail : std_smsc smsc o -> decodeAddressField (o ++ tail) true = Ok ((smsc, len o), tail).
Proof.
  destruct 1 as [|d toa v Hd Hne L Ht H1 H5 Hv|d toa v Hd Hne L Ht H1 Hv].
  - reflexivity.
  - rewrite (semi_unique d v Hd Hv) in *. cbn [app].
    pose proof (decode_phone_field d toa tail true Hd Hne ltac:(unfold in_octet in Ht; lia) H5) as P.
    cbv iota delta [phone_length] beta in P. rewrite P.
    replace (type_of_number toa =? 1) with false by lia. rewrite !len_cons. do 3 f_equal. lia.
  - rewrite (semi_unique d v Hd Hv) in *. cbn [app].
    pose proof (decode_phone_field d toa tail true Hd Hne ltac:(unfold in_octet in Ht; lia) ltac:(lia)) as P.
    cbv iota delta [phone_length] beta in P. rewrite P.
    rewrite H1. cbn [Z.eqb Pos.eqb]. rewrite !len_cons. do 3 f_equal. lia.
Qed.
Lemma std_smsc_octets smsc o : std_smsc smsc o -> octets_ok o.
Proof.
  destruct 1 as [|d toa v Hd Hne L Ht H1 H5 [Hv _]|d toa v Hd Hne L Ht H1 [Hv _]].
  - repeat constructor; lia.
  - pose proof (len_nonneg v). unfold in_octet in *. constructor; [lia|]. constructor; [lia|auto].
  - pose proof (len_nonneg v). unfold in_octet in *. constructor; [lia|]. constructor; [lia|auto].
Qed.
Lemma std_address_octets a o : std_address a o -> octets_ok o.
Proof.
  destruct 1 as [d toa v Hd Hne L Ht H1 H5 [Hv _]|d toa v Hd Hne L Ht H1 [Hv _]|t s v toa Hs Hne L Ht H5 [Hv _]].
  - pose proof (len_nonneg d). unfold in_octet in *. constructor; [lia|]. constructor; [lia|auto].
  - pose proof (len_nonneg d). unfold in_octet in *. constructor; [lia|]. constructor; [lia|auto].
  - pose proof (len_nonneg s). unfold in_octet in *. constructor; [lia|]. constructor; [lia|auto].
Qed.

(** an address read as [address_read] says *)
Lemma decode_std_address' a o : std_address a o ->
  (type_of_number (nth 1 o 0) = 5 -> ~ In 0xA7 a /\ ~ In 0x0C a) ->
  exists a', address_read o a a' /\ forall tail, octets_ok tail ->
    decodeAddressField (o ++ tail) false = Ok ((Some a', len o), tail).
Proof.
  intros H K. destruct (Z.eq_dec (type_of_number (nth 1 o 0)) 5) as [E|E].
  - destruct (decode_std_address a o [] H ltac:(constructor)) as [_ D]. destruct (D E (K E)) as (a' & R & _).
    exists a'. split; [constructor 2; auto; apply (K E)|]. intros tail Ht.
    destruct (decode_std_address a o tail H Ht) as [_ D']. destruct (D' E (K E)) as (a'' & R' & ->).
    rewrite (gsm7_received_fun _ _ _ _ R R'). reflexivity.
  - exists a. split; [constructor; auto|]. intros tail Ht. apply decode_std_address; auto.
Qed.

Lemma timestamp_octets t q : sms_time t q -> octets_ok (timestamp_of t q).
Proof.
  intro H. pose proof (encodeTimestamp_ok t q H) as E. unfold timestamp_of. eapply encodeTimestamp_octets; eauto.
Qed.

Lemma elements_octets l : Forall element_ok l -> octets_ok (List.concat (map element_octets l)).
Proof.
  induction 1 as [|e l He Hl IH]; [constructor|]. cbn [map List.concat]. apply Forall_app. split; auto.
  destruct He as (Hi & Hd & Hlen & _). unfold in_octet in Hi. pose proof (len_nonneg (el_data e)).
  constructor; [lia|]. constructor; [lia|auto].
Qed.
Lemma sent_octets first es hdr alphabet t udl ud : header_of first es hdr -> sent_text alphabet hdr t udl ud -> octets_ok ud.
Proof.
  intros Hh Hx. assert (octets_ok hdr).
  { destruct es as [l|]; cbn [header_of] in Hh; [|destruct Hh as [_ ->]; constructor].
    destruct Hh as (_ & [Hl Hlen] & ->). pose proof (len_nonneg (List.concat (map element_octets l))).
    constructor; [lia|]. apply elements_octets; auto. }
  destruct Hx as [hdr t s v Hst Hv|hdr t Ho|hdr t Hb]; apply Forall_app; split; auto.
  - apply Hv.
  - apply ucs2_octets; auto.
Qed.

(** the first character does not survive a header that ends on a septet boundary *)
Lemma weight_nonneg t n : text_weight t n -> 0 <= n.
Proof. induction 1 as [|c w t n Hw Ht IH]; [lia|]. destruct Hw as [[_ ->]|[_ ->]]; lia. Qed.
Lemma weight_removelast u m : text_weight u m -> exists m', text_weight (removelast u) m' /\ m' <= m.
Proof.
  induction 1 as [|c w t n Hw Ht (m' & IH & L)]; [exists 0; split; [constructor|lia]|].
  destruct t as [|d t].
  - exists 0. split; [constructor|]. inversion Ht. destruct Hw as [[_ ->]|[_ ->]]; lia.
  - exists (w + m'). split; [|lia]. change (removelast (c :: d :: t)) with (c :: removelast (d :: t)). constructor; auto.
Qed.
Lemma weight_known t n : text_weight t n -> ~ In 0xA7 t /\ ~ In 0x0C t.
Proof.
  induction 1 as [|c w t n Hw Ht [IH1 IH2]]; [cbn; auto|].
  assert (c <> 0xA7 /\ c <> 0x0C) as [N1 N2].
  { destruct Hw as [[H _]|[[[p H] N] _]].
    - apply in_basic_iff in H. split; intros ->; vm_compute in H;
        repeat (destruct H as [H|H]; [discriminate|]); destruct H.
    - split; [|auto]. intros ->. vm_compute in H. repeat (destruct H as [H|H]; [discriminate|]); destruct H. }
  cbn [In]. tauto.
Qed.
Lemma std_weight t s : std_text t s -> ~ In 0xA7 t -> ~ In 0x0C t -> text_weight t (len s).
Proof. intros H K1 K2. apply lib_text_weight, encode_lib, (std_text_encode t s H K1 K2). Qed.
Lemma first_lost alphabet hdr t t' : alphabet = 0 -> hdr <> [] -> fill_bits (len hdr) = 0 -> t <> [] ->
  ~ In 0xA7 t -> ~ In 0x0C t -> text_read alphabet hdr t t' -> t' <> t.
Proof.
  intros E Hh F Hne K1 K2 R. destruct R as [t' _ [|] _|s u t' _ _ _ Ht Hu R|]; try congruence.
  pose proof (std_weight t s Ht K1 K2) as W.
  destruct R as [R|[-> ->]]; [|congruence].
  assert (exists m, text_weight t' m /\ m < len s) as (m & Wm & L).
  { assert (exists n, text_weight u n) as [n Wn] by (destruct R; eauto).
    destruct (weight_known _ _ Wn) as [N1 N2]. pose proof (std_weight u (tl s) Hu N1 N2) as Wu.
    assert (Hs : len (tl s) < len s).
    { destruct s; [|cbn [tl]; rewrite len_cons; lia]. inversion Ht as [|c sc t0 r Hc Ht0 Ec Esr]; [congruence|].
      destruct Hc; discriminate. }
    destruct R as [k|k].
    - eauto.
    - destruct (weight_removelast _ _ Wu) as (m' & Wm' & L'). exists m'. split; auto. lia. }
  intros ->. pose proof (text_weight_fun _ _ W _ Wm). lia.
Qed.

(** ** SMS-DELIVER *)
Lemma deliver_final smsc smscf first oa oaf pid dcs alphabet t q es hdr text udl ud :
  std_smsc smsc smscf -> 0 <= first < 256 -> mti first = 0 -> std_address oa oaf ->
  (type_of_number (nth 1 oaf 0) = 5 -> ~ In 0xA7 oa /\ ~ In 0x0C oa) ->
  in_octet pid -> general_dcs dcs alphabet -> sms_time t q -> header_of first es hdr ->
  sent_text alphabet hdr text udl ud -> udl <= 255 ->
  (alphabet = 0 -> text <> [] /\ ~ In 0xA7 text /\ ~ In 0x0C text) ->
  exists oa' udh text', address_read oaf oa oa' /\ text_read alphabet hdr text text' /\
    match es, udh with None, None => True | Some l, Some os => Forall2 element_object l os | _, _ => False end /\
    let data := deliver_octets smscf first oaf pid dcs (timestamp_of t q) udl ud in
    decodeSmsPdu_bytes data = Ok (mk_sms smsc (len data - len smscf) (SmsDeliver (Some oa') pid t udh text')) /\
    decodeSmsPdu (pdu_str data) = decodeSmsPdu_bytes data.
Proof.
  intros Hs Hf Hm Ha Ka Hp Hd Ht Hh Hx Hu Kt.
  pose proof (sent_octets _ _ _ _ _ _ _ Hh Hx) as Hud.
  destruct (decode_std_address' oa oaf Ha Ka) as (oa' & Ra & Da).
  destruct (decode_user_data first es hdr alphabet text udl ud Hh Hx Kt) as (udh & text' & Du & Hes & Rt).
  exists oa', udh, text'. split; auto. split; auto. split; auto. cbv zeta.
  assert (0 <= udl) as Hu0.
  { pose proof (fill_range (len hdr)). pose proof (len_nonneg hdr).
    inversion Hx; subst; pose proof (len_nonneg text); try pose proof (len_nonneg s); lia. }
  pose proof (std_smsc_octets _ _ Hs) as O1. pose proof (std_address_octets _ _ Ha) as O2.
  pose proof (timestamp_octets _ _ Ht) as O3.
  assert (O4 : octets_ok (timestamp_of t q ++ [udl] ++ ud)).
  { apply Forall_app; split; auto. constructor; [lia|auto]. }
  assert (O5 : octets_ok ([pid; dcs] ++ timestamp_of t q ++ [udl] ++ ud)).
  { destruct Hd as [Hd _]. unfold in_octet in Hp. constructor; [lia|]. constructor; [lia|auto]. }
  assert (O6 : octets_ok ([first] ++ oaf ++ [pid; dcs] ++ timestamp_of t q ++ [udl] ++ ud)).
  { constructor; [lia|]. apply Forall_app; auto. }
  split.
  - unfold decodeSmsPdu_bytes. cbv zeta. unfold deliver_octets at 1. rewrite (decode_std_smsc _ _ _ Hs). cbn [bind app next].
    destruct (first_bits first Hf) as [-> ->]. rewrite Hm. change (0 =? 0) with true. cbv iota.
    change (oaf ++ pid :: dcs :: timestamp_of t q ++ udl :: ud) with (oaf ++ ([pid; dcs] ++ timestamp_of t q ++ [udl] ++ ud)).
    rewrite Da by auto. cbn [bind app next]. unfold timestamp_of at 1.
    rewrite (decodeTimestamp_ok t q _ Ht). cbn [bind next]. rewrite (general_dcs_decode _ _ Hd), Du. cbn [bind].
    reflexivity.
  - apply decode_hex. unfold deliver_octets. apply Forall_app; auto.
Qed.

(** ** SMS-STATUS-REPORT *)
Lemma status_report_final smsc smscf first mr ra raf t1 q1 t2 q2 status optional :
  std_smsc smsc smscf -> 0 <= first < 256 -> mti first = 2 -> in_octet mr -> std_address ra raf ->
  (type_of_number (nth 1 raf 0) = 5 -> ~ In 0xA7 ra /\ ~ In 0x0C ra) ->
  sms_time t1 q1 -> sms_time t2 q2 -> in_octet status -> octets_ok optional ->
  exists ra', address_read raf ra ra' /\
    let data := status_report_octets smscf first mr raf (timestamp_of t1 q1) (timestamp_of t2 q2) status optional in
    decodeSmsPdu_bytes data = Ok (mk_sms smsc (len data - len smscf) (SmsStatusReport mr (Some ra') t1 t2 status)) /\
    decodeSmsPdu (pdu_str data) = decodeSmsPdu_bytes data.
Proof.
  intros Hs Hf Hm Hr Ha Ka Ht1 Ht2 Hst Hopt.
  destruct (decode_std_address' ra raf Ha Ka) as (ra' & Ra & Da). exists ra'. split; auto. cbv zeta.
  pose proof (std_smsc_octets _ _ Hs) as O1. pose proof (std_address_octets _ _ Ha) as O2.
  pose proof (timestamp_octets _ _ Ht1) as O3. pose proof (timestamp_octets _ _ Ht2) as O3'.
  assert (O5 : octets_ok (timestamp_of t1 q1 ++ timestamp_of t2 q2 ++ [status] ++ optional)).
  { apply Forall_app; split; auto. apply Forall_app; split; auto. unfold in_octet in Hst. constructor; [lia|auto]. }
  assert (O6 : octets_ok ([first; mr] ++ raf ++ timestamp_of t1 q1 ++ timestamp_of t2 q2 ++ [status] ++ optional)).
  { unfold in_octet in Hr. constructor; [lia|]. constructor; [lia|]. apply Forall_app; auto. }
  split.
  - unfold decodeSmsPdu_bytes. cbv zeta. unfold status_report_octets at 1. rewrite (decode_std_smsc _ _ _ Hs). cbn [bind app next].
    destruct (first_bits first Hf) as [-> ->]. rewrite Hm. change (2 =? 0) with false. change (2 =? 1) with false.
    change (2 =? 2) with true. cbv iota. cbn [next bind].
    change (raf ++ timestamp_of t1 q1 ++ timestamp_of t2 q2 ++ status :: optional)
      with (raf ++ (timestamp_of t1 q1 ++ timestamp_of t2 q2 ++ [status] ++ optional)).
    rewrite Da by auto. cbn [bind app]. unfold timestamp_of at 1.
    rewrite (decodeTimestamp_ok t1 q1 _ Ht1). cbn [bind]. unfold timestamp_of at 1.
    rewrite (decodeTimestamp_ok t2 q2 _ Ht2). reflexivity.
  - apply decode_hex. unfold status_report_octets. apply Forall_app; auto.
Qed.
