(** A received message whose timestamp has a filler in its zone octet. *)
From Verif Require Import Base DateModel PduModel PduSpec SmsSpec DeliverSpec SeptetProofs Gsm7Proofs FieldProofs TimeProofs AddressProofs SubmitProofs DecodeProofs StampSpec StampProofs.
From Coq Require Import ZifyBool.
Ltac Zify.zify_post_hook ::= Z.div_mod_to_equations.

Lemma deliver_stamp smsc smscf first oa oaf pid dcs alphabet scts t es hdr text udl ud :
  std_smsc smsc smscf -> 0 <= first < 256 -> mti first = 0 -> std_address oa oaf ->
  (type_of_number (nth 1 oaf 0) = 5 -> ~ In 0xA7 oa /\ ~ In 0x0C oa) ->
  in_octet pid -> general_dcs dcs alphabet -> octets_ok scts -> (forall tail, octets_ok tail -> decodeTimestamp (scts ++ tail) = Ok (t, tail)) -> header_of first es hdr ->
  sent_text alphabet hdr text udl ud -> udl <= 255 ->
  (alphabet = 0 -> text <> [] /\ ~ In 0xA7 text /\ ~ In 0x0C text) ->
  exists oa' udh text', address_read oaf oa oa' /\ text_read alphabet hdr text text' /\
    match es, udh with None, None => True | Some l, Some os => Forall2 element_object l os | _, _ => False end /\
    let data := deliver_octets smscf first oaf pid dcs scts udl ud in
    decodeSmsPdu_bytes data = Ok (mk_sms smsc (len data - len smscf) (SmsDeliver (Some oa') pid t udh text')) /\
    decodeSmsPdu (pdu_str data) = decodeSmsPdu_bytes data.
Proof.
  intros Hs Hf Hm Ha Ka Hp Hd O3 Ht Hh Hx Hu Kt.
  pose proof (sent_octets _ _ _ _ _ _ _ Hh Hx) as Hud.
  destruct (decode_std_address' oa oaf Ha Ka) as (oa' & Ra & Da).
  destruct (decode_user_data first es hdr alphabet text udl ud Hh Hx Kt) as (udh & text' & Du & Hes & Rt).
  exists oa', udh, text'. split; auto. split; auto. split; auto. cbv zeta.
  assert (0 <= udl) as Hu0.
  { pose proof (fill_range (len hdr)). pose proof (len_nonneg hdr).
    inversion Hx; subst; pose proof (len_nonneg text); try pose proof (len_nonneg s); lia. }
  pose proof (std_smsc_octets _ _ Hs) as O1. pose proof (std_address_octets _ _ Ha) as O2.
  assert (O7 : octets_ok ([udl] ++ ud)) by (constructor; [lia|auto]).
  assert (O4 : octets_ok (scts ++ [udl] ++ ud)) by (apply Forall_app; split; auto).
  assert (O5 : octets_ok ([pid; dcs] ++ scts ++ [udl] ++ ud)).
  { destruct Hd as [Hd _]. unfold in_octet in Hp. constructor; [lia|]. constructor; [lia|auto]. }
  assert (O6 : octets_ok ([first] ++ oaf ++ [pid; dcs] ++ scts ++ [udl] ++ ud)).
  { constructor; [lia|]. apply Forall_app; auto. }
  split.
  - unfold decodeSmsPdu_bytes. cbv zeta. unfold deliver_octets at 1. rewrite (decode_std_smsc _ _ _ Hs). cbn [bind app next].
    destruct (first_bits first Hf) as [-> ->]. rewrite Hm. change (0 =? 0) with true. cbv iota.
    change (oaf ++ pid :: dcs :: scts ++ udl :: ud) with (oaf ++ ([pid; dcs] ++ scts ++ [udl] ++ ud)).
    rewrite Da by auto. cbn [bind app next]. change (udl :: ud) with ([udl] ++ ud).
    rewrite (Ht _ O7). cbn [bind app next]. rewrite (general_dcs_decode _ _ Hd), Du. cbn [bind].
    reflexivity.
  - apply decode_hex. unfold deliver_octets. apply Forall_app; auto.
Qed.
Theorem deliver_filled smsc smscf first oa oaf pid dcs alphabet t q z es hdr text udl ud :
  std_smsc smsc smscf -> 0 <= first < 256 -> mti first = 0 -> std_address oa oaf ->
  (type_of_number (nth 1 oaf 0) = 5 -> ~ In 0xA7 oa /\ ~ In 0x0C oa) ->
  in_octet pid -> general_dcs dcs alphabet -> sms_time t q -> 0 <= z <= 9 -> header_of first es hdr ->
  sent_text alphabet hdr text udl ud -> udl <= 255 ->
  (alphabet = 0 -> text <> [] /\ ~ In 0xA7 text /\ ~ In 0x0C text) ->
  exists oa' udh text' t' q', address_read oaf oa oa' /\ text_read alphabet hdr text text' /\
    match es, udh with None, None => True | Some l, Some os => Forall2 element_object l os | _, _ => False end /\
    zone_read (dt_second t mod 10) z q' /\ same_hour t t' (dt_minute t) (dt_second t / 10) q' /\
    let data := deliver_octets smscf first oaf pid dcs (firstn 6 (timestamp_of t q) ++ [z + 240]) udl ud in
    decodeSmsPdu (pdu_str data) = Ok (mk_sms smsc (len data - len smscf) (SmsDeliver (Some oa') pid t' udh text')).
Proof.
  intros Hs Hf Hm Ha Ka Hp Hd Ht Hz Hh Hx Hu Kt.
  destruct (proj1 (stamp_filled t q z [] Ht ltac:(lia) (Forall_nil _)) ltac:(lia)) as (t' & q' & Z0 & Sa & _).
  destruct (deliver_stamp smsc smscf first oa oaf pid dcs alphabet (firstn 6 (timestamp_of t q) ++ [z + 240]) t' es hdr text udl ud) as (oa' & udh & text' & A & B & C & D & E); auto.
  - apply Forall_app. split; [|constructor; [lia|constructor]]. pose proof (stamp_octets t q Ht) as O. unfold timestamp_of. rewrite <- (firstn_skipn 6 (ts23040_timestamp _ _ _ _ _ _ _)) in O. apply Forall_app in O. tauto.
  - intros tail O. rewrite <- app_assoc. destruct (proj1 (stamp_filled t q z tail Ht ltac:(lia) O) ltac:(lia)) as (t2 & q2 & Z2 & S2 & E2). unfold timestamp_of. cbn [List.app]. rewrite E2. do 2 f_equal.
    assert (q2 = q') by (unfold zone_read in *; lia). subst q2. unfold same_hour in *. destruct t2, t'; cbn in *. intuition congruence.
  - exists oa', udh, text', t', q'. cbv zeta in *. rewrite E, D. auto 8.
Qed.
