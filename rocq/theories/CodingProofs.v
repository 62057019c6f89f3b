(** Proofs about data coding schemes, stored SMS-SUBMITs, digits of addresses and
    escapes. *)
From Verif Require Import Base DateModel PduModel PduSpec SmsSpec DeliverSpec SubmitSpec CodingSpec SeptetProofs Gsm7Proofs FieldProofs TimeProofs AddressProofs SubmitProofs SubmitFinal DecodeProofs.
From Coq Require Import ZifyBool.
Ltac Zify.zify_post_hook ::= Z.div_mod_to_equations.

(** ** Whole messages whose parts read as given *)
Definition reads_address (field : list Z) (a : str) : Prop :=
  octets_ok field /\ forall tail, octets_ok tail -> decodeAddressField (field ++ tail) false = Ok ((Some a, len field), tail).
Lemma std_reads a o : std_address a o -> (type_of_number (nth 1 o 0) = 5 -> ~ In 0xA7 a /\ ~ In 0x0C a) -> exists a', address_read o a a' /\ reads_address o a'.
Proof. intros H K. destruct (decode_std_address' a o H K) as (a' & R & D). exists a'. split; auto. split; [eapply std_address_octets; eauto|auto]. Qed.

Lemma deliver_general smsc smscf first oaf oa pid dcs t q udl ud :
  std_smsc smsc smscf -> 0 <= first < 256 -> mti first = 0 -> reads_address oaf oa -> in_octet pid -> in_octet dcs -> sms_time t q -> in_octet udl -> octets_ok ud ->
  let data := deliver_octets smscf first oaf pid dcs (timestamp_of t q) udl ud in
  decodeSmsPdu_bytes data = (let* (udh, text) := decodeUserData ud udl (decodeDataCoding dcs) (udhi first) in
    Ok (mk_sms smsc (len data - len smscf) (SmsDeliver (Some oa) pid t udh text))) /\
  decodeSmsPdu (pdu_str data) = decodeSmsPdu_bytes data.
Proof.
  intros Hs Hf Hm [Oa Da] Hp Hd Ht Hu Hud. cbv zeta. unfold in_octet in *.
  pose proof (std_smsc_octets _ _ Hs) as O1. pose proof (timestamp_octets _ _ Ht) as O3.
  assert (O4 : octets_ok (timestamp_of t q ++ [udl] ++ ud)) by (apply Forall_app; split; auto; constructor; [lia|auto]).
  assert (O5 : octets_ok ([pid; dcs] ++ timestamp_of t q ++ [udl] ++ ud)) by (constructor; [lia|]; constructor; [lia|auto]).
  assert (O6 : octets_ok ([first] ++ oaf ++ [pid; dcs] ++ timestamp_of t q ++ [udl] ++ ud)) by (constructor; [lia|]; apply Forall_app; auto).
  split.
  - unfold decodeSmsPdu_bytes. cbv zeta. unfold deliver_octets at 1. rewrite (decode_std_smsc _ _ _ Hs). cbn [bind app next].
    destruct (first_bits first Hf) as [-> ->]. rewrite Hm. change (0 =? 0) with true. cbv iota.
    change (oaf ++ pid :: dcs :: timestamp_of t q ++ udl :: ud) with (oaf ++ ([pid; dcs] ++ timestamp_of t q ++ [udl] ++ ud)).
    rewrite Da by auto. cbn [bind app next]. unfold timestamp_of at 1.
    rewrite (decodeTimestamp_ok t q _ Ht). cbn [bind next]. destruct (decodeUserData _ _ _ _) as [[udh text]|e]; reflexivity.
  - apply decode_hex. unfold deliver_octets. apply Forall_app; auto.
Qed.

Lemma submit_bits x : 0 <= x < 256 -> Z.shiftr (Z.land x 24) 3 = vpf x.
Proof.
  intro H. assert (forallb (fun x => Z.shiftr (Z.land x 24) 3 =? (x / 8) mod 4) (map Z.of_nat (seq 0 256)) = true) as F by (vm_compute; reflexivity).
  rewrite forallb_forall in F. specialize (F x (octet_in x H)). unfold vpf. lia.
Qed.
(** the validity as decodeSmsPdu reads it *)
Definition read_validity (f : Z) (it : list Z) : res (dvalidity * list Z) :=
  if f =? 2 then let* (o, it) := next it in let* t := decodeRelativeValidityPeriod o in Ok (DVRelative t, it)
  else if f =? 3 then let* (t, it) := decodeTimestamp it in Ok (DVAbsolute t, it)
  else Ok (DVNone, it).
Lemma validity_read f vp v tail : sent_validity f vp v -> read_validity f (vp ++ tail) = Ok (v, tail).
Proof.
  destruct 1 as [|o Ho|t q Ht]; unfold read_validity.
  - reflexivity.
  - cbn [app next bind]. rewrite decode_vp_spec by auto. reflexivity.
  - unfold timestamp_of. change (3 =? 2) with false. change (3 =? 3) with true. cbv iota. rewrite (decodeTimestamp_ok t q _ Ht). reflexivity.
Qed.
Lemma submit_general smsc w da :
  std_smsc smsc (s_smsc w) -> 0 <= s_first w < 256 -> mti (s_first w) = 1 -> reads_address (s_dest w) da -> in_octet (s_ref w) -> in_octet (s_pid w) -> in_octet (s_dcs w) ->
  octets_ok (s_vp w) -> in_octet (s_udl w) -> octets_ok (s_ud w) ->
  decodeSmsPdu_bytes (submit_octets w) = (let* (val, it) := read_validity (vpf (s_first w)) (s_vp w ++ [s_udl w] ++ s_ud w) in
    let* (udl, it) := next it in
    let* (udh, text) := decodeUserData it udl (decodeDataCoding (s_dcs w)) (udhi (s_first w)) in
    Ok (mk_sms smsc (len (tpdu_octets w)) (SmsSubmit (s_ref w) (Some da) (s_pid w) val udh text))) /\
  decodeSmsPdu (pdu_str (submit_octets w)) = decodeSmsPdu_bytes (submit_octets w).
Proof.
  destruct w as [smscf first mr daf pid dcs vp udl ud]. cbn [s_smsc s_first s_ref s_dest s_pid s_dcs s_vp s_udl s_ud].
  intros Hs Hf Hm [Oa Da] Hr Hp Hd Hv Hu Hud. unfold in_octet in *.
  pose proof (std_smsc_octets _ _ Hs) as O1.
  assert (O4 : octets_ok (vp ++ [udl] ++ ud)) by (apply Forall_app; split; auto; constructor; [lia|auto]).
  assert (O5 : octets_ok ([pid; dcs] ++ vp ++ [udl] ++ ud)) by (constructor; [lia|]; constructor; [lia|auto]).
  assert (O6 : octets_ok ([first; mr] ++ daf ++ [pid; dcs] ++ vp ++ [udl] ++ ud)) by (constructor; [lia|]; constructor; [lia|]; apply Forall_app; auto).
  assert (L : forall a : list Z, Z.of_nat (length (smscf ++ a)) - len smscf = len a) by (intro a; rewrite app_length; unfold len; lia).
  split.
  - unfold decodeSmsPdu_bytes. cbv zeta. unfold submit_octets, tpdu_octets. cbn [s_smsc s_first s_ref s_dest s_pid s_dcs s_vp s_udl s_ud].
    rewrite (decode_std_smsc _ _ _ Hs). cbn [bind]. rewrite L. cbn [app next bind].
    destruct (first_bits first Hf) as [-> ->]. rewrite Hm. change (1 =? 0) with false. change (1 =? 1) with true. cbv iota. rewrite (submit_bits first Hf).
    change (daf ++ pid :: dcs :: vp ++ udl :: ud) with (daf ++ ([pid; dcs] ++ vp ++ [udl] ++ ud)) at 1.
    rewrite Da by auto. cbn [bind app next]. fold (read_validity (vpf first) (vp ++ udl :: ud)).
    destruct (read_validity (vpf first) (vp ++ udl :: ud)) as [[v it]|e]; [|reflexivity]. cbn [bind]. destruct it as [|u it]; [reflexivity|]. cbn [next bind].
    destruct (decodeUserData _ _ _ _) as [[udh text]|e]; reflexivity.
  - apply decode_hex. unfold submit_octets, tpdu_octets. cbn. apply Forall_app; auto.
Qed.

(** ** Data coding schemes *)
Lemma coding_read dcs : in_octet dcs -> decodeDataCoding dcs = if dcs <? 64 then ts23038_alphabet dcs else 0.
Proof.
  intro H. assert (forallb (fun x => decodeDataCoding x =? (if x <? 64 then ts23038_alphabet x else 0)) (map Z.of_nat (seq 0 256)) = true) as F by (vm_compute; reflexivity).
  rewrite forallb_forall in F. unfold in_octet in H. specialize (F dcs (octet_in dcs ltac:(lia))). lia.
Qed.
Lemma coding_right dcs alphabet : in_octet dcs -> ts23038_alphabet dcs = alphabet -> dcs < 64 \/ alphabet = 0 -> decodeDataCoding dcs = alphabet.
Proof. intros H A [L| ->]; rewrite coding_read by auto; destruct (Z.ltb_spec dcs 64); lia. Qed.
Lemma sent_udl first es hdr alphabet t udl ud : header_of first es hdr -> sent_text alphabet hdr t udl ud -> 0 <= udl.
Proof.
  intros Hh Hx. pose proof (fill_range (len hdr)). pose proof (len_nonneg hdr). inversion Hx; subst; pose proof (len_nonneg t); try pose proof (len_nonneg s); lia.
Qed.
Theorem deliver_coded smsc smscf first oa oaf pid dcs alphabet t q es hdr text udl ud :
  std_smsc smsc smscf -> 0 <= first < 256 -> mti first = 0 -> std_address oa oaf ->
  (type_of_number (nth 1 oaf 0) = 5 -> ~ In 0xA7 oa /\ ~ In 0x0C oa) ->
  in_octet pid -> in_octet dcs -> ts23038_alphabet dcs = alphabet -> dcs < 64 \/ alphabet = 0 -> sms_time t q -> header_of first es hdr ->
  sent_text alphabet hdr text udl ud -> udl <= 255 ->
  (alphabet = 0 -> text <> [] /\ ~ In 0xA7 text /\ ~ In 0x0C text) ->
  exists oa' udh text', address_read oaf oa oa' /\ text_read alphabet hdr text text' /\
    match es, udh with None, None => True | Some l, Some os => Forall2 element_object l os | _, _ => False end /\
    let data := deliver_octets smscf first oaf pid dcs (timestamp_of t q) udl ud in
    decodeSmsPdu_bytes data = Ok (mk_sms smsc (len data - len smscf) (SmsDeliver (Some oa') pid t udh text')) /\
    decodeSmsPdu (pdu_str data) = decodeSmsPdu_bytes data.
Proof.
  intros Hs Hf Hm Ha Ka Hp Hd Al W Ht Hh Hx Hu Kt. destruct (std_reads oa oaf Ha Ka) as (oa' & Ra & Da).
  destruct (decode_user_data first es hdr alphabet text udl ud Hh Hx Kt) as (udh & text' & Du & Hes & Rt).
  exists oa', udh, text'. split; auto. split; auto. split; auto. cbv zeta.
  pose proof (sent_udl _ _ _ _ _ _ _ Hh Hx).
  destruct (deliver_general smsc smscf first oaf oa' pid dcs t q udl ud) as [D X]; auto; [unfold in_octet; lia|eapply sent_octets; eauto|].
  split; auto. rewrite D, (coding_right dcs alphabet), Du; auto.
Qed.
Theorem deliver_miscoded smsc smscf first oa oaf pid dcs t q udl ud :
  std_smsc smsc smscf -> 0 <= first < 256 -> mti first = 0 -> std_address oa oaf ->
  (type_of_number (nth 1 oaf 0) = 5 -> ~ In 0xA7 oa /\ ~ In 0x0C oa) ->
  in_octet pid -> in_octet dcs -> 64 <= dcs -> sms_time t q -> in_octet udl -> octets_ok ud ->
  decodeSmsPdu_bytes (deliver_octets smscf first oaf pid dcs (timestamp_of t q) udl ud) =
  decodeSmsPdu_bytes (deliver_octets smscf first oaf pid 0 (timestamp_of t q) udl ud).
Proof.
  intros Hs Hf Hm Ha Ka Hp Hd L Ht Hu Hud. destruct (std_reads oa oaf Ha Ka) as (oa' & Ra & Da).
  destruct (deliver_general smsc smscf first oaf oa' pid dcs t q udl ud) as [D1 _]; auto.
  destruct (deliver_general smsc smscf first oaf oa' pid 0 t q udl ud) as [D2 _]; auto; [unfold in_octet; lia|].
  rewrite D1, D2, (coding_read dcs) by auto. destruct (Z.ltb_spec dcs 64); [lia|].
  replace (len (deliver_octets smscf first oaf pid dcs (timestamp_of t q) udl ud)) with (len (deliver_octets smscf first oaf pid 0 (timestamp_of t q) udl ud)); auto.
  unfold deliver_octets, len. rewrite !app_length. reflexivity.
Qed.
Theorem deliver_compressed smsc smscf first oa oaf pid dcs t q udl ud :
  std_smsc smsc smscf -> 0 <= first < 256 -> mti first = 0 -> std_address oa oaf ->
  (type_of_number (nth 1 oaf 0) = 5 -> ~ In 0xA7 oa /\ ~ In 0x0C oa) ->
  in_octet pid -> in_octet dcs -> compressed dcs = true -> sms_time t q -> in_octet udl -> octets_ok ud ->
  decodeSmsPdu_bytes (deliver_octets smscf first oaf pid dcs (timestamp_of t q) udl ud) =
  decodeSmsPdu_bytes (deliver_octets smscf first oaf pid (dcs - 32) (timestamp_of t q) udl ud).
Proof.
  intros Hs Hf Hm Ha Ka Hp Hd C Ht Hu Hud. destruct (std_reads oa oaf Ha Ka) as (oa' & Ra & Da).
  assert (K : in_octet (dcs - 32) /\ decodeDataCoding (dcs - 32) = decodeDataCoding dcs).
  { assert (forallb (fun x => implb (compressed x) ((32 <=? x) && (decodeDataCoding (x - 32) =? decodeDataCoding x))) (map Z.of_nat (seq 0 256)) = true) as F by (vm_compute; reflexivity).
    rewrite forallb_forall in F. unfold in_octet in *. specialize (F dcs (octet_in dcs ltac:(lia))). rewrite C in F. cbn [implb] in F. lia. }
  destruct K as [K1 K2].
  destruct (deliver_general smsc smscf first oaf oa' pid dcs t q udl ud) as [D1 _]; auto.
  destruct (deliver_general smsc smscf first oaf oa' pid (dcs - 32) t q udl ud) as [D2 _]; auto.
  rewrite D1, D2, K2.
  replace (len (deliver_octets smscf first oaf pid dcs (timestamp_of t q) udl ud)) with (len (deliver_octets smscf first oaf pid (dcs - 32) (timestamp_of t q) udl ud)); auto.
  unfold deliver_octets, len. rewrite !app_length. reflexivity.
Qed.

(** a UCS-2 text read as septets *)
Definition ext_chars : list Z := map fst GSM7_EXTENDED.
Lemma lookup_chars c l : forall x, In x (ext_lookup c l) -> In x (map fst l).
Proof. induction l as [|[k [v|v]] l IH]; cbn; intros x H; auto. destruct (c =? v); [destruct H as [->|[]]; auto|auto]. Qed.
Lemma decode_chars_ind n : forall s t, (length s <= n)%nat -> decodeGsm7 s = Ok t -> Forall (fun c => In c (GSM7_BASIC ++ ext_chars)) t.
Proof.
  induction n as [|n IH]; intros [|b s] t L D; try (injection D as <-; constructor); cbn [length] in L; try lia. cbn [decodeGsm7] in D. destruct (b =? 27).
  - destruct s as [|c s]; [discriminate|]. destruct (decodeGsm7 s) as [r|] eqn:E; [|discriminate]. injection D as <-. apply Forall_app. split; [|apply (IH s); [cbn in L; lia|auto]].
    apply Forall_forall. intros x Hx. apply in_or_app. right. exact (lookup_chars c GSM7_EXTENDED x Hx).
  - destruct (nth_error GSM7_BASIC (Z.to_nat b)) as [ch|] eqn:N; [|discriminate]. destruct (decodeGsm7 s) as [r|] eqn:E; [|discriminate]. injection D as <-.
    constructor; [apply in_or_app; left; eapply nth_error_In; eauto|apply (IH s); [lia|auto]].
Qed.
Lemma decode_chars s t : decodeGsm7 s = Ok t -> Forall (fun c => In c (GSM7_BASIC ++ ext_chars)) t.
Proof. intro. eapply decode_chars_ind; eauto. Qed.
Lemma wide_char c : In c (GSM7_BASIC ++ ext_chars) -> Z.land (c / 256) 127 <> 27 /\ (nth_error GSM7_BASIC (Z.to_nat (Z.land (c / 256) 127)) = Some c -> c = 64).
Proof.
  intro H. assert (forallb (fun c => negb (Z.land (c / 256) 127 =? 27) && (match nth_error GSM7_BASIC (Z.to_nat (Z.land (c / 256) 127)) with Some d => negb (d =? c) | None => true end || (c =? 64))) (GSM7_BASIC ++ ext_chars) = true) as F
    by (vm_compute; reflexivity).
  rewrite forallb_forall in F. specialize (F c H). apply andb_true_iff in F as [F1 F2]. split; [lia|]. intro N. rewrite N in F2. lia.
Qed.
Lemma ucs2_misread c text udl r : bmp (c :: text) -> c <> 64 -> 2 <= udl -> decodeUserData (ucs2_be (c :: text)) udl 0 false = Ok r -> snd r <> c :: text.
Proof.
  intros B N U D E. destruct r as [udh t]. cbn [snd] in E. subst t. unfold decodeUserData in D. cbv iota in D. cbn [bind] in D. change (0 =? 0) with true in D. cbv iota in D. cbn [bind] in D.
  destruct (unpackSeptets _ _ None 7) as [[s it]|e] eqn:P; [|discriminate]. cbn [bind] in D. destruct (decodeGsm7 s) as [t|e] eqn:G; [|discriminate]. injection D as <- ->.
  pose proof (decode_chars _ _ G) as Fc. inversion Fc as [|? ? Hc _]; subst. apply wide_char in Hc as [W1 W2].
  unfold unpackSeptets in P. cbn [ucs2_be unpackSeptets_loop] in P. change (7 =? 7) with true in P. cbv iota zeta in P. change (0 + 1) with 1 in P.
  replace (1 <=? udl) with true in P by lia. replace (1 =? udl) with false in P by lia. cbv iota in P.
  match type of P with bind ?u _ = _ => destruct u as [[r it']|e] eqn:Q; [|discriminate] end. cbn [bind app] in P. injection P as <- _.
  cbn [decodeGsm7] in G. destruct (Z.eqb_spec (Z.land (c / 256) 127) 27) as [F|F]; [congruence|].
  destruct (nth_error GSM7_BASIC (Z.to_nat (Z.land (c / 256) 127))) as [ch|]; [|discriminate]. destruct (decodeGsm7 r) as [x|e]; [|discriminate]. cbn [bind] in G. injection G as -> _.
  apply N, W2. reflexivity.
Qed.
Theorem deliver_ucs2_lost smsc smscf first oa oaf pid dcs t q c text :
  std_smsc smsc smscf -> 0 <= first < 256 -> mti first = 0 -> udhi first = false -> std_address oa oaf ->
  (type_of_number (nth 1 oaf 0) = 5 -> ~ In 0xA7 oa /\ ~ In 0x0C oa) ->
  in_octet pid -> in_octet dcs -> 64 <= dcs -> ts23038_alphabet dcs = 2 -> sms_time t q -> bmp (c :: text) -> 2 * len (c :: text) <= 255 -> c <> 64 ->
  forall s, decodeSmsPdu_bytes (deliver_octets smscf first oaf pid dcs (timestamp_of t q) (2 * len (c :: text)) (ucs2_be (c :: text))) = Ok s -> text_of_sms s <> Some (c :: text).
Proof.
  intros Hs Hf Hm Hh Ha Ka Hp Hd L Al Ht B Hu N s D. destruct (std_reads oa oaf Ha Ka) as (oa' & Ra & Da).
  assert (Hx : sent_text 2 [] (c :: text) (len (@nil Z) + 2 * len (c :: text)) ([] ++ ucs2_be (c :: text))) by (constructor; auto).
  assert (Oc : octets_ok (ucs2_be (c :: text))) by (eapply (sent_octets first None [] 2 (c :: text)); [cbn; auto|exact Hx]).
  pose proof (len_nonneg text) as Ln. pose proof (len_cons c text) as Lc.
  destruct (deliver_general smsc smscf first oaf oa' pid dcs t q (2 * len (c :: text)) (ucs2_be (c :: text))) as [D1 _]; auto; [unfold in_octet; lia|].
  rewrite D1, Hh, (coding_read dcs) in D by auto. destruct (Z.ltb_spec dcs 64); [lia|].
  destruct (decodeUserData (ucs2_be (c :: text)) (2 * len (c :: text)) 0 false) as [[udh r]|e] eqn:Du; [|discriminate]. cbn [bind] in D. injection D as <-. cbn.
  intros [= E]. apply (ucs2_misread c text (2 * len (c :: text)) _ B N ltac:(lia) Du). exact E.
Qed.

(** ** SMS-SUBMIT *)
Lemma validity_octets f vp v : sent_validity f vp v -> octets_ok vp.
Proof. destruct 1 as [|o Ho|t q Ht]; [constructor|unfold in_octet in Ho; constructor; [lia|constructor]|apply timestamp_octets; auto]. Qed.
Theorem submit_stored smsc w da alphabet v es hdr text :
  std_smsc smsc (s_smsc w) -> 0 <= s_first w < 256 -> mti (s_first w) = 1 -> std_address da (s_dest w) ->
  (type_of_number (nth 1 (s_dest w) 0) = 5 -> ~ In 0xA7 da /\ ~ In 0x0C da) ->
  in_octet (s_ref w) -> in_octet (s_pid w) -> in_octet (s_dcs w) -> ts23038_alphabet (s_dcs w) = alphabet -> s_dcs w < 64 \/ alphabet = 0 ->
  sent_validity (vpf (s_first w)) (s_vp w) v -> header_of (s_first w) es hdr -> sent_text alphabet hdr text (s_udl w) (s_ud w) -> s_udl w <= 255 ->
  (alphabet = 0 -> text <> [] /\ ~ In 0xA7 text /\ ~ In 0x0C text) ->
  exists da' udh text', address_read (s_dest w) da da' /\ text_read alphabet hdr text text' /\
    match es, udh with None, None => True | Some l, Some os => Forall2 element_object l os | _, _ => False end /\
    decodeSmsPdu_bytes (submit_octets w) = Ok (mk_sms smsc (len (tpdu_octets w)) (SmsSubmit (s_ref w) (Some da') (s_pid w) v udh text')) /\
    decodeSmsPdu (pdu_str (submit_octets w)) = decodeSmsPdu_bytes (submit_octets w).
Proof.
  intros Hs Hf Hm Ha Ka Hr Hp Hd Al W Hv Hh Hx Hu Kt. destruct (std_reads _ _ Ha Ka) as (da' & Ra & Da).
  destruct (decode_user_data _ es hdr alphabet text _ _ Hh Hx Kt) as (udh & text' & Du & Hes & Rt).
  exists da', udh, text'. split; auto. split; auto. split; auto. pose proof (sent_udl _ _ _ _ _ _ _ Hh Hx).
  destruct (submit_general smsc w da') as [D X]; auto; [eapply validity_octets; eauto|unfold in_octet; lia|eapply sent_octets; eauto|].
  split; auto. rewrite D, (validity_read _ _ _ _ Hv). cbn [bind app next]. rewrite (coding_right _ alphabet), Du; auto.
Qed.
Lemma enhanced_first f : 0 <= f < 256 -> vpf f = 1 -> 0 <= f - 8 < 256 /\ mti (f - 8) = mti f /\ udhi (f - 8) = udhi f /\ vpf (f - 8) = 0.
Proof.
  intros H V. assert (forallb (fun f => implb (vpf f =? 1) ((8 <=? f) && (mti (f - 8) =? mti f) && Bool.eqb (udhi (f - 8)) (udhi f) && (vpf (f - 8) =? 0))) (map Z.of_nat (seq 0 256)) = true) as F
    by (vm_compute; reflexivity).
  rewrite forallb_forall in F. specialize (F f (octet_in f H)). rewrite V in F. cbn [Z.eqb implb] in F. change (1 =? 1) with true in F. cbn [implb] in F.
  repeat (apply andb_true_iff in F as [F ?]). apply eqb_prop in H1. repeat split; auto; lia.
Qed.
Theorem submit_enhanced smsc smscf first mr da daf pid dcs u vp udl ud :
  std_smsc smsc smscf -> 0 <= first < 256 -> mti first = 1 -> vpf first = 1 -> std_address da daf ->
  (type_of_number (nth 1 daf 0) = 5 -> ~ In 0xA7 da /\ ~ In 0x0C da) ->
  in_octet mr -> in_octet pid -> in_octet dcs -> octets_ok (u :: vp) -> in_octet udl -> octets_ok ud ->
  decodeSmsPdu_bytes (submit_octets (mk_submit smscf first mr daf pid dcs (u :: vp) udl ud)) =
  decodeSmsPdu_bytes (submit_octets (mk_submit smscf (first - 8) mr daf pid dcs [] u (vp ++ udl :: ud))).
Proof.
  intros Hs Hf Hm V Ha Ka Hr Hp Hd Ov Hu Hud. destruct (std_reads _ _ Ha Ka) as (da' & Ra & Da). destruct (enhanced_first first Hf V) as (F1 & F2 & F3 & F4).
  inversion Ov as [|? ? Hu1 Hvp]; subst. unfold in_octet in *.
  destruct (submit_general smsc (mk_submit smscf first mr daf pid dcs (u :: vp) udl ud) da') as [D1 _]; auto.
  destruct (submit_general smsc (mk_submit smscf (first - 8) mr daf pid dcs [] u (vp ++ udl :: ud)) da') as [D2 _]; auto; cbn [s_first s_vp s_udl s_ud]; try lia; try (unfold in_octet; lia); try constructor.
  { apply Forall_app. split; auto. constructor; [lia|auto]. }
  rewrite D1, D2. cbn [s_smsc s_first s_ref s_dest s_pid s_dcs s_vp s_udl s_ud]. rewrite V, F3, F4. unfold read_validity. change (1 =? 2) with false. change (1 =? 3) with false. change (0 =? 2) with false. change (0 =? 3) with false.
  cbv iota. cbn [bind app next]. replace (len (tpdu_octets (mk_submit smscf (first - 8) mr daf pid dcs [] u (vp ++ udl :: ud)))) with (len (tpdu_octets (mk_submit smscf first mr daf pid dcs (u :: vp) udl ud))); auto.
Qed.
Theorem submit_enhanced_octets smsc smscf first mr da daf pid dcs u vp udl ud :
  std_smsc smsc smscf -> 0 <= first < 256 -> mti first = 1 -> vpf first = 1 -> udhi first = false -> std_address da daf -> type_of_number (nth 1 daf 0) <> 5 ->
  in_octet mr -> in_octet pid -> 0 <= dcs < 64 -> ts23038_alphabet dcs = 1 -> octets_ok (u :: vp) -> in_octet udl -> octets_ok ud ->
  exists n, decodeSmsPdu_bytes (submit_octets (mk_submit smscf first mr daf pid dcs (u :: vp) udl ud)) =
    Ok (mk_sms smsc n (SmsSubmit mr (Some da) pid DVNone None (vp ++ udl :: ud))).
Proof.
  intros Hs Hf Hm V Hh Ha Nt Hr Hp Hd Al Ov Hu Hud. destruct (std_reads _ _ Ha ltac:(tauto)) as (da' & Ra & Da).
  assert (da' = da) as -> by (destruct Ra; congruence).
  destruct (submit_general smsc (mk_submit smscf first mr daf pid dcs (u :: vp) udl ud) da) as [D1 _]; auto; [unfold in_octet; cbn; lia|].
  eexists. rewrite D1. cbn [s_smsc s_first s_ref s_dest s_pid s_dcs s_vp s_udl s_ud]. rewrite V, Hh. unfold read_validity. change (1 =? 2) with false. change (1 =? 3) with false. cbv iota. cbn [bind app next].
  rewrite (coding_right dcs 1); auto; try (unfold in_octet; lia); try (left; lia). unfold decodeUserData. cbn [bind]. reflexivity.
Qed.

(** ** Digits of addresses *)
Lemma semi_codes_nil v : semi_codes [] v -> v = [].
Proof. intros [L _]. destruct v as [|x v]; auto. change (len (@nil Z)) with 0 in L. rewrite len_cons in L. pose proof (len_nonneg v). change (0 mod 2) with 0 in L. lia. Qed.
Lemma semi_codes_one a v : semi_codes [a] v -> v = [a + 240].
Proof.
  intros [L H]. rewrite len_cons in L. change (len (@nil Z)) with 0 in L. destruct v as [|x [|y v]]; [change (len (@nil Z)) with 0 in L; lia| |rewrite !len_cons in L; pose proof (len_nonneg v); lia].
  specialize (H 0%nat ltac:(cbn; lia)). cbn in H. f_equal. lia.
Qed.
Lemma semi_codes_two a b codes v : semi_codes (a :: b :: codes) v -> exists v', v = a + 16 * b :: v' /\ semi_codes codes v'.
Proof.
  intros [L H]. destruct v as [|x v]; [rewrite !len_cons in L; change (len (@nil Z)) with 0 in L; pose proof (len_nonneg codes); lia|]. exists v. split.
  - specialize (H 0%nat ltac:(cbn; lia)). cbn in H. f_equal. lia.
  - split; [rewrite !len_cons in L; lia|]. intros i Hi. specialize (H (S i) ltac:(cbn; lia)). cbn [nth] in H. rewrite H.
    replace (2 * S i)%nat with (S (S (2 * i))) by lia. replace (S (S (2 * i)) + 1)%nat with (S (S (2 * i + 1))) by lia. reflexivity.
Qed.
Lemma codes_read k : forall codes v tail i n, (length codes <= k)%nat -> Forall code_ok codes -> codes <> [] -> semi_codes codes v -> n = i + len v ->
  decodeSemiOctets_loop (v ++ tail) (Some n) i = (map hexdigit_lower codes, tail).
Proof.
  induction k as [|k IH]; intros [|a [|b codes]] v tail i n L F N S E; try congruence; try (cbn [length] in L; lia).
  - apply semi_codes_one in S as ->. inversion F; subst. unfold code_ok in *. cbn [app decodeSemiOctets_loop]. replace ((a + 240) / 16 =? 15) with true by lia. replace ((a + 240) mod 16) with a by lia. reflexivity.
  - apply semi_codes_two in S as (v' & -> & S). inversion F as [|? ? Ha F']; inversion F' as [|? ? Hb F'']; subst. unfold code_ok in Ha, Hb. cbn [app decodeSemiOctets_loop].
    replace ((a + 16 * b) / 16) with b by lia. replace ((a + 16 * b) mod 16) with a by lia. replace (b =? 15) with false by lia. rewrite len_cons.
    destruct codes as [|c codes].
    + apply semi_codes_nil in S as ->. change (len (@nil Z)) with 0. replace (i + 1 =? i + (0 + 1)) with true by lia. reflexivity.
    + assert (1 <= len v').
      { destruct S as [S _]. rewrite len_cons in S. pose proof (len_nonneg codes). pose proof (len_nonneg v'). lia. }
      replace (i + 1 =? i + (len v' + 1)) with false by lia. rewrite (IH (c :: codes) v' tail (i + 1) (i + (len v' + 1))); auto; try discriminate; try lia; try (cbn [length] in *; lia).
Qed.
Lemma semi_codes_octets k : forall codes v, (length codes <= k)%nat -> Forall code_ok codes -> semi_codes codes v -> octets_ok v.
Proof.
  induction k as [|k IH]; intros [|a [|b codes]] v L F S; try (cbn [length] in L; lia).
  - apply semi_codes_nil in S as ->. constructor.
  - apply semi_codes_nil in S as ->. constructor.
  - apply semi_codes_one in S as ->. inversion F; subst. unfold code_ok in *. constructor; [lia|constructor].
  - apply semi_codes_two in S as (v' & -> & S). inversion F as [|? ? Ha F']; inversion F' as [|? ? Hb F'']; subst. unfold code_ok in *. constructor; [lia|]. apply (IH codes); auto. cbn [length] in L. lia.
Qed.
Lemma codes_address codes toa v : Forall code_ok codes -> codes <> [] -> len codes <= 255 -> in_octet toa -> type_of_number toa <> 5 -> semi_codes codes v ->
  reads_address (len codes :: toa :: v) (plus_if toa (map hexdigit_lower codes)).
Proof.
  intros F N L T T5 S. unfold in_octet in T. assert (0 < len codes) by (destruct codes; [congruence|rewrite len_cons; pose proof (len_nonneg codes); lia]).
  split; [constructor; [lia|]; constructor; [lia|]; eapply semi_codes_octets; eauto|]. intros tail Ot. cbn [app]. unfold decodeAddressField. cbn [next bind].
  replace (0 <? len codes) with true by lia. rewrite ton_land by lia. replace (16 * type_of_number toa =? 80) with false by lia.
  replace (16 * type_of_number toa =? 16) with (type_of_number toa =? 1) by lia.
  replace (if len codes mod 2 =? 0 then len codes / 2 else len codes / 2 + 1) with (len v) by (destruct S as [S _]; destruct (Z.eqb_spec (len codes mod 2) 0); lia).
  unfold decodeSemiOctets. rewrite (codes_read _ codes v tail 0 (len v) (le_n _)) by auto. unfold plus_if. rewrite !len_cons. destruct (type_of_number toa =? 1); do 3 f_equal; lia.
Qed.
Theorem deliver_digits smsc smscf first codes toa v pid dcs alphabet t q es hdr text udl ud :
  std_smsc smsc smscf -> 0 <= first < 256 -> mti first = 0 -> Forall code_ok codes -> codes <> [] -> len codes <= 255 -> in_octet toa -> type_of_number toa <> 5 -> semi_codes codes v ->
  in_octet pid -> in_octet dcs -> ts23038_alphabet dcs = alphabet -> dcs < 64 \/ alphabet = 0 -> sms_time t q -> header_of first es hdr ->
  sent_text alphabet hdr text udl ud -> udl <= 255 -> (alphabet = 0 -> text <> [] /\ ~ In 0xA7 text /\ ~ In 0x0C text) ->
  exists udh text', text_read alphabet hdr text text' /\
    let data := deliver_octets smscf first (len codes :: toa :: v) pid dcs (timestamp_of t q) udl ud in
    decodeSmsPdu_bytes data = Ok (mk_sms smsc (len data - len smscf) (SmsDeliver (Some (plus_if toa (map (fun n => nth (Z.to_nat n) (lit "0123456789abcde") 0) codes))) pid t udh text')).
Proof.
  intros Hs Hf Hm F N L T T5 S Hp Hd Al W Ht Hh Hx Hu Kt.
  destruct (decode_user_data first es hdr alphabet text udl ud Hh Hx Kt) as (udh & text' & Du & Hes & Rt).
  exists udh, text'. split; auto. cbv zeta. pose proof (sent_udl _ _ _ _ _ _ _ Hh Hx).
  destruct (deliver_general smsc smscf first (len codes :: toa :: v) (plus_if toa (map hexdigit_lower codes)) pid dcs t q udl ud) as [D X]; auto;
    [apply codes_address; auto|unfold in_octet; lia|eapply sent_octets; eauto|].
  rewrite D, (coding_right dcs alphabet), Du by auto. cbn [bind]. do 5 f_equal. apply map_ext_in. intros n Hn. rewrite Forall_forall in F. specialize (F n Hn). unfold code_ok in F.
  assert (K : forallb (fun n => hexdigit_lower n =? nth (Z.to_nat n) (lit "0123456789abcde") 0) (map Z.of_nat (seq 0 15)) = true) by (vm_compute; reflexivity).
  rewrite forallb_forall in K. specialize (K n). apply Z.eqb_eq, K, in_map_iff. exists (Z.to_nat n). split; [lia|apply in_seq; lia].
Qed.
Theorem digits_differ codes : Forall code_ok codes ->
  (map (fun n => nth (Z.to_nat n) (lit "0123456789abcde") 0) codes = map ts23040_digit codes <-> Forall (fun n => n <= 9) codes).
Proof.
  assert (K : forall n, code_ok n -> (nth (Z.to_nat n) (lit "0123456789abcde") 0 = ts23040_digit n <-> n <= 9)).
  { intros n F. unfold code_ok in F.
    assert (K : forallb (fun n => Bool.eqb (nth (Z.to_nat n) (lit "0123456789abcde") 0 =? ts23040_digit n) (n <=? 9)) (map Z.of_nat (seq 0 15)) = true) by (vm_compute; reflexivity).
    rewrite forallb_forall in K. specialize (K n ltac:(apply in_map_iff; exists (Z.to_nat n); split; [lia|apply in_seq; lia])). apply eqb_prop in K. lia. }
  induction 1 as [|n codes Hn Hc IH]; [split; constructor|]. cbn [map]. split.
  - intros [= E1 E2]. constructor; [apply K; auto|apply IH; auto].
  - intro F. inversion F; subst. f_equal; [apply K; auto|apply IH; auto].
Qed.
Theorem digits_sent number text ref v smsc srr rd fl pdus p : encodeSmsSubmitPdu number text ref v smsc srr rd fl = Ok pdus -> In p pdus -> In 42 number \/ In 35 number ->
  exists w, fields number smsc v p w /\ type_of_number (nth 1 (s_dest w) 0) = 5.
Proof.
  intros E Hp C. destruct (encode_wires _ _ _ _ _ _ _ _ _ E) as (g & Hv & Hg & _). destruct (submit_master _ _ _ _ _ _ _ _ _ _ E Hg) as (_ & _ & HN).
  apply In_nth_error in Hp as [i Hi]. apply HN in Hi as (_ & w & _ & Fw). exists w. split; auto. destruct Fw as (_ & _ & Ea & _).
  assert (A : alphanumeric number).
  { split; [intros ->; destruct C as [[]|[]]|]. intros d ton (Hd & _ & [[-> _]|[-> _]]); unfold digits_ok in Hd; rewrite Forall_forall in Hd.
    - destruct C as [C|C]; apply Hd in C; lia.
    - destruct C as [[C|C]|[C|C]]; try lia; apply Hd in C; lia. }
  rewrite (encode_alpha _ _ A) in Ea. destruct (encodeGsm7 number false); [|discriminate]. cbn [bind] in Ea. destruct (packSeptets _ 0); [|discriminate]. cbn [bind] in Ea.
  destruct (byte _); [|discriminate]. cbn [bind] in Ea. injection Ea as <-. reflexivity.
Qed.

(** ** Escapes *)
Lemma septet_in x : 0 <= x < 128 -> In x (map Z.of_nat (seq 0 128)).
Proof. intro H. apply in_map_iff. exists (Z.to_nat x). split; [lia|apply in_seq; lia]. Qed.
Lemma basic_table i c : nth_error ts23038_basic i = Some (Some c) ->
  Z.of_nat i <> 27 /\ nth_error GSM7_BASIC i = Some (if Z.of_nat i =? 0x5F then 0x60 else c) /\ (Z.of_nat i = 0x5F <-> c = 0xA7).
Proof.
  intro H. assert (L : (i < 128)%nat) by (change 128%nat with (length ts23038_basic); apply nth_error_Some; congruence).
  assert (F : forallb (fun i => match nth_error ts23038_basic i with
    | Some (Some c) => negb (Z.of_nat i =? 27) && match nth_error GSM7_BASIC i with Some d => d =? (if Z.of_nat i =? 0x5F then 0x60 else c) | None => false end && Bool.eqb (Z.of_nat i =? 0x5F) (c =? 0xA7)
    | _ => true end) (seq 0 128) = true) by (vm_compute; reflexivity).
  rewrite forallb_forall in F. specialize (F i ltac:(apply in_seq; lia)). rewrite H in F. apply andb_true_iff in F as [F F3]. apply andb_true_iff in F as [F1 F2]. apply eqb_prop in F3.
  destruct (nth_error GSM7_BASIC i) as [d|]; [|discriminate]. split; [lia|]. split; [f_equal; lia|lia].
Qed.
Lemma ext_table p c : In (p, c) ts23038_ext -> ext_lookup p GSM7_EXTENDED = (if c =? 0x0C then [] else [c]) /\ 0 <= p < 128.
Proof.
  intro H. assert (F : forallb (fun pc => (str_eqb (ext_lookup (fst pc) GSM7_EXTENDED) (if snd pc =? 0x0C then [] else [snd pc])) && (0 <=? fst pc) && (fst pc <? 128)) ts23038_ext = true) by (vm_compute; reflexivity).
  rewrite forallb_forall in F. specialize (F _ H). cbn [fst snd] in F. apply andb_true_iff in F as [F F2]. apply andb_true_iff in F as [F F1]. apply str_eqb_eq in F. split; [auto|lia].
Qed.
Lemma no_ext p : 0 <= p < 128 -> (forall c, In (p, c) ts23038_ext -> c = 0x0C) -> ext_lookup p GSM7_EXTENDED = [].
Proof.
  intros H N. assert (F : forallb (fun p => str_eqb (ext_lookup p GSM7_EXTENDED) [] || existsb (fun pc => (fst pc =? p) && negb (snd pc =? 0x0C)) ts23038_ext) (map Z.of_nat (seq 0 128)) = true) by (vm_compute; reflexivity).
  rewrite forallb_forall in F. specialize (F p (septet_in p H)). apply orb_true_iff in F as [F|F]; [apply str_eqb_eq; auto|]. apply existsb_exists in F as ([p' c] & I & E). cbn [fst snd] in E.
  apply andb_true_iff in E as [E1 E2]. assert (p' = p) as -> by lia. apply N in I. lia.
Qed.
Lemma decode_basic i c s : nth_error ts23038_basic i = Some (Some c) -> decodeGsm7 (Z.of_nat i :: s) = (let* r := decodeGsm7 s in Ok ((if Z.of_nat i =? 0x5F then 0x60 else c) :: r)).
Proof. intro H. apply basic_table in H as (N & B & _). cbn [decodeGsm7]. replace (Z.of_nat i =? 27) with false by lia. rewrite Nat2Z.id, B. reflexivity. Qed.
Lemma decode_escape p s : decodeGsm7 (27 :: p :: s) = (let* r := decodeGsm7 s in Ok (ext_lookup p GSM7_EXTENDED ++ r)).
Proof. reflexivity. Qed.
Lemma lib_reads s t : lib_reading s t -> decodeGsm7 s = Ok t.
Proof.
  induction 1 as [|i c s t B N H IH|s t H IH|p c s t I N H IH|p s t P I H IH]; [reflexivity| | | |].
  - rewrite (decode_basic i c s B), IH. cbn [bind]. apply basic_table in B as (_ & _ & B). replace (Z.of_nat i =? 0x5F) with false; auto. symmetry. apply Z.eqb_neq. tauto.
  - cbn [decodeGsm7]. change (95 =? 27) with false. cbv iota. change (nth_error GSM7_BASIC (Z.to_nat 95)) with (Some 96). cbv iota. rewrite IH. reflexivity.
  - rewrite decode_escape, IH. cbn [bind]. apply ext_table in I as [-> _]. replace (c =? 0x0C) with false by lia. reflexivity.
  - rewrite decode_escape, IH. cbn [bind]. rewrite no_ext by auto. reflexivity.
Qed.
Lemma cut_reads s : septets_ok s -> cut_escape s -> decodeGsm7 s = Err StopIteration.
Proof.
  intros O H. induction H as [|x s N H IH|p s H IH].
  - reflexivity.
  - inversion O as [|? ? Hx O']; subst. cbn [decodeGsm7]. replace (x =? 27) with false by lia. rewrite (IH O').
    destruct (nth_error GSM7_BASIC (Z.to_nat x)) eqn:E; [reflexivity|]. apply nth_error_None in E. change (length GSM7_BASIC) with 128%nat in E. lia.
  - inversion O as [|? ? Hx O']; inversion O'; subst. rewrite decode_escape, IH by auto. reflexivity.
Qed.
Lemma ext_decides p : (exists c, In (p, c) ts23038_ext /\ c <> 0x0C) \/ (forall c, In (p, c) ts23038_ext -> c = 0x0C).
Proof.
  destruct (existsb (fun pc => (fst pc =? p) && negb (snd pc =? 0x0C)) ts23038_ext) eqn:E.
  - left. apply existsb_exists in E as ([p' c] & I & H). cbn [fst snd] in H. apply andb_true_iff in H as [H1 H2]. assert (p' = p) as -> by lia. exists c. split; auto. lia.
  - right. intros c I. destruct (Z.eq_dec c 0x0C) as [|N]; auto. assert (existsb (fun pc => (fst pc =? p) && negb (snd pc =? 0x0C)) ts23038_ext = true); [|congruence].
    apply existsb_exists. exists (p, c). split; auto. cbn [fst snd]. lia.
Qed.
Lemma basic_decides x : 0 <= x < 128 -> x <> 27 -> x = 0x5F \/ exists i c, x = Z.of_nat i /\ nth_error ts23038_basic i = Some (Some c) /\ c <> 0xA7.
Proof.
  intros H N. destruct (Z.eq_dec x 0x5F) as [|N2]; [auto|]. right. destruct (nth_error ts23038_basic (Z.to_nat x)) as [[c|]|] eqn:E.
  - exists (Z.to_nat x), c. split; [lia|]. split; auto. apply basic_table in E as (_ & _ & E). rewrite Z2Nat.id in E by lia. tauto.
  - exfalso. assert (F : forallb (fun i => match nth_error ts23038_basic i with Some None => (i =? 27)%nat | _ => true end) (seq 0 128) = true) by (vm_compute; reflexivity).
    rewrite forallb_forall in F. specialize (F (Z.to_nat x) ltac:(apply in_seq; lia)). rewrite E in F. apply Nat.eqb_eq in F. lia.
  - apply nth_error_None in E. change (length ts23038_basic) with 128%nat in E. lia.
Qed.
Lemma reading_or_cut k : forall s, (length s <= k)%nat -> septets_ok s -> (exists t, lib_reading s t) \/ cut_escape s.
Proof.
  induction k as [|k IH]; intros [|x s] L O; try (left; exists []; constructor); [cbn in L; lia|]. inversion O as [|? ? Hx O']; subst. cbn [length] in L.
  destruct (Z.eq_dec x 27) as [->|N].
  - destruct s as [|p s]; [right; constructor|]. inversion O' as [|? ? Hp O'']; subst. cbn [length] in L. destruct (IH s ltac:(lia) O'') as [(t & R)|C]; [|right; apply ce_escaped; auto].
    left. destruct (ext_decides p) as [(c & I & Nc)|I]; eexists; [eapply lr_ext; eauto|eapply lr_lost; eauto].
  - destruct (IH s ltac:(lia) O') as [(t & R)|C]; [|right; constructor; auto]. left.
    destruct (basic_decides x Hx N) as [->|(i & c & -> & B & Nc)]; eexists; [apply lr_section; eauto|eapply lr_basic; eauto].
Qed.
Theorem septets_read s : septets_ok s -> (exists t, lib_reading s t /\ decodeGsm7 s = Ok t) \/ (cut_escape s /\ decodeGsm7 s = Err StopIteration).
Proof.
  intro O. destruct (reading_or_cut _ s (le_n _) O) as [(t & R)|C]; [left; exists t; split; auto; apply lib_reads; auto|right; split; auto; apply cut_reads; auto].
Qed.
Lemma shorter_reading s t : std_reading s t -> forall t', decodeGsm7 s = Ok t' -> (length t' <= length t)%nat /\ (t' = t -> same_reading s).
Proof.
  induction 1 as [|i c s t B H IH|p c s t I H IH|i c s t N B H IH|s t H IH]; intros t' D.
  - injection D as <-. split; auto. constructor.
  - rewrite (decode_basic i c s B) in D. destruct (decodeGsm7 s) as [r|]; [|discriminate]. cbn [bind] in D. injection D as <-. destruct (IH r eq_refl) as [L E]. split; [cbn [length]; lia|].
    intros [= E1 E2]. apply basic_table in B as (N1 & _ & N2). apply sa_basic; auto. destruct (Z.eqb_spec (Z.of_nat i) 0x5F) as [Q|Q]; auto. intros _. apply N2 in Q. lia.
  - rewrite decode_escape in D. destruct (ext_table p c I) as [Le _]. rewrite Le in D. destruct (decodeGsm7 s) as [r|]; [|discriminate]. destruct (IH r eq_refl) as [L E].
    destruct (Z.eqb_spec c 0x0C) as [->|Nc]; cbn [bind app] in D; injection D as <-; cbn [length]; (split; [lia|]).
    + intros ->. cbn [length] in L. lia.
    + intros [= E2]. apply (sa_ext p c s I Nc). auto.
  - assert ((i < 128)%nat) by (change 128%nat with (length ts23038_basic); apply nth_error_Some; congruence).
    rewrite decode_escape, no_ext in D; [|lia|intros c' I; destruct (N _ I)]. destruct (decodeGsm7 s) as [r|]; [|discriminate]. cbn [bind app] in D. injection D as <-.
    destruct (IH r eq_refl) as [L E]. cbn [length]. split; [lia|]. intros ->. cbn [length] in L. lia.
  - rewrite decode_escape in D. destruct (decodeGsm7 s) as [r|]; [|discriminate]. change (ext_lookup 27 GSM7_EXTENDED) with (@nil Z) in D. cbn [bind app] in D. injection D as <-. destruct (IH r eq_refl) as [L E].
    cbn [length]. split; [lia|]. intros ->. cbn [length] in L. lia.
Qed.
Lemma same_reads s t : std_reading s t -> same_reading s -> decodeGsm7 s = Ok t.
Proof.
  induction 1 as [|i c s t B H IH|p c s t I H IH|i c s t N B H IH|s t H IH]; intro S.
  - reflexivity.
  - rewrite (decode_basic i c s B). destruct (basic_table i c B) as (N1 & _ & _). inversion S as [|? ? N2 N3 S'|]; subst; [|lia]. rewrite (IH S'). cbn [bind]. replace (Z.of_nat i =? 0x5F) with false by lia. reflexivity.
  - rewrite decode_escape. inversion S as [|? ? N2 N3 S'|p' c' ? I' Nc S']; subst; [congruence|]. rewrite (IH S'). cbn [bind]. pose proof I as J. apply ext_table in J as [J _]. apply ext_table in I' as [J' _].
    rewrite J in *. replace (c' =? 0x0C) with false in J' by lia. destruct (c =? 0x0C); [discriminate|]. reflexivity.
  - inversion S as [|? ? N2 N3 S'|p' c' ? I' Nc S']; subst; [congruence|]. destruct (N _ I').
  - inversion S as [|? ? N2 N3 S'|p' c' ? I' Nc S']; subst; [congruence|]. exfalso. apply ext_table in I' as [J _]. change (ext_lookup 27 GSM7_EXTENDED) with (@nil Z) in J. replace (c' =? 0x0C) with false in J by lia. discriminate.
Qed.
Theorem readings_agree s t : std_reading s t -> (decodeGsm7 s = Ok t <-> same_reading s).
Proof. intro H. split; [intro D; eapply shorter_reading; eauto|apply same_reads; auto]. Qed.

Theorem deliver_septets smsc smscf first oa oaf pid dcs t q s v :
  std_smsc smsc smscf -> 0 <= first < 256 -> mti first = 0 -> udhi first = false -> std_address oa oaf -> type_of_number (nth 1 oaf 0) <> 5 ->
  in_octet pid -> in_octet dcs -> ts23038_alphabet dcs = 0 -> sms_time t q -> septets_ok s -> s <> [] -> septet_stream 0 s v -> len s <= 255 ->
  exists s', (s' = s \/ ((7 * len s) mod 8 = 0 /\ s = s' ++ [0])) /\
    let data := deliver_octets smscf first oaf pid dcs (timestamp_of t q) (len s) v in
    ((exists text, lib_reading s' text /\ decodeSmsPdu_bytes data = Ok (mk_sms smsc (len data - len smscf) (SmsDeliver (Some oa) pid t None text))) \/
     (cut_escape s' /\ decodeSmsPdu_bytes data = Err StopIteration)).
Proof.
  intros Hs Hf Hm Hh Ha Nt Hp Hd Al Ht Os Ns Sv L. destruct (std_reads oa oaf Ha ltac:(tauto)) as (oa' & Ra & Da). assert (oa' = oa) as -> by (destruct Ra; congruence).
  pose proof Sv as [Ov _]. assert (0 < len s) by (destruct s; [congruence|rewrite len_cons; pose proof (len_nonneg s); lia]).
  destruct (deliver_general smsc smscf first oaf oa pid dcs t q (len s) v) as [D _]; auto; [unfold in_octet; lia|].
  apply stream_val_spec in Sv; auto; [|lia]. 
  assert (U : unpackSeptets v (Some (len s)) None 7 = Ok (lossy 0 s, [])) by (apply unpack_stream0; auto; destruct Sv as (_ & HL & _); lia).
  exists (lossy 0 s). split.
  - unfold lossy. destruct (Z.eqb_spec ((0 + 7 * len s) mod 8) 0) as [E|E]; cbn [andb]; auto. destruct (Z.eqb_spec (last s 1) 0) as [E0|E0]; auto.
    right. split; [lia|]. rewrite <- E0. apply app_removelast_last. auto.
  - cbv zeta. rewrite D, (coding_right dcs 0) by auto. rewrite Hh. unfold decodeUserData. cbn [bind]. change (0 =? 0) with true. cbv iota. cbn [bind]. rewrite U. cbn [bind].
    assert (O' : septets_ok (lossy 0 s)).
    { unfold lossy. destruct (_ && _); auto. destruct (exists_last Ns) as (a & x & ->). rewrite removelast_last. apply Forall_app in Os as [? _]. auto. }
    destruct (septets_read _ O') as [(text & R & E)|[C E]]; rewrite E; cbn [bind]; [left; exists text; auto|right; auto].
Qed.
Lemma cut_last s : cut_escape s -> exists a, s = a ++ [27].
Proof. induction 1 as [|x s N H [a ->]|p s H [a ->]]; [exists []; reflexivity|exists (x :: a); reflexivity|exists (27 :: p :: a); reflexivity]. Qed.
Theorem deliver_cut smsc smscf first oa oaf pid dcs t q s v :
  std_smsc smsc smscf -> 0 <= first < 256 -> mti first = 0 -> udhi first = false -> std_address oa oaf -> type_of_number (nth 1 oaf 0) <> 5 ->
  in_octet pid -> in_octet dcs -> ts23038_alphabet dcs = 0 -> sms_time t q -> septets_ok s -> cut_escape s -> septet_stream 0 s v -> len s <= 255 ->
  decodeSmsPdu_bytes (deliver_octets smscf first oaf pid dcs (timestamp_of t q) (len s) v) = Err StopIteration.
Proof.
  intros Hs Hf Hm Hh Ha Nt Hp Hd Al Ht Os C Sv L. destruct (cut_last s C) as [a E].
  destruct (deliver_septets smsc smscf first oa oaf pid dcs t q s v) as (s' & [->|[_ E']] & H); auto; [intros ->; destruct a; discriminate| |].
  - destruct H as [(text & R & _)|[_ D]]; auto. apply lib_reads in R. rewrite (cut_reads s Os C) in R. discriminate.
  - rewrite E in E'. apply app_inj_tail in E' as [_ E']. discriminate.
Qed.
