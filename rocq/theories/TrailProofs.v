(** Proofs about octets behind the user data. *)
From Verif Require Import Base DateModel PduModel PduSpec SmsSpec DeliverSpec SubmitSpec CodingSpec SeptetProofs Gsm7Proofs FieldProofs TimeProofs AddressProofs SubmitProofs CodecFinal DecodeProofs CodingProofs.
From Coq Require Import ZifyBool.
Ltac Zify.zify_post_hook ::= Z.div_mod_to_equations.

(** ** Octets *)
Theorem trailing_octets smsc smscf first oa oaf pid dcs t q udl ud :
  std_smsc smsc smscf -> 0 <= first < 256 -> mti first = 0 -> udhi first = false -> std_address oa oaf -> type_of_number (nth 1 oaf 0) <> 5 ->
  in_octet pid -> 0 <= dcs < 64 -> ts23038_alphabet dcs = 1 -> sms_time t q -> in_octet udl -> octets_ok ud ->
  let data := deliver_octets smscf first oaf pid dcs (timestamp_of t q) udl ud in
  decodeSmsPdu_bytes data = Ok (mk_sms smsc (len data - len smscf) (SmsDeliver (Some oa) pid t None ud)).
Proof.
  intros Hs Hf Hm Hh Ha Nt Hp Hd Al Ht Hu Hud. cbv zeta. destruct (std_reads oa oaf Ha ltac:(tauto)) as (oa' & Ra & Da). assert (oa' = oa) as -> by (destruct Ra; congruence).
  destruct (deliver_general smsc smscf first oaf oa pid dcs t q udl ud) as [D _]; auto; [unfold in_octet; lia|].
  rewrite D, (coding_right dcs 1); auto; try (unfold in_octet; lia); try (left; lia). rewrite Hh. reflexivity.
Qed.

(** ** Characters of two octets *)
Lemma ucs2_pairs t : forall k i n, bmp t -> i + 2 * len t <= n + 1 ->
  decodeUcs2_loop (ucs2_be t ++ k) i n = (let (s, r) := decodeUcs2_loop k (i + 2 * len t) n in (t ++ s, r)).
Proof.
  induction t as [|c t IH]; intros k i n B L; [change (len (@nil Z)) with 0; replace (i + 2 * 0) with i by lia; cbn [ucs2_be app]; destruct (decodeUcs2_loop k i n); reflexivity|].
  rewrite len_cons in *. pose proof (len_nonneg t). cbn [ucs2_be app decodeUcs2_loop]. replace (i <? n) with true by lia. inversion B as [|? ? Hc B']; subst.
  rewrite IH by (auto; lia). replace (i + 2 + 2 * len t) with (i + 2 * (len t + 1)) by lia. destruct (decodeUcs2_loop k (i + 2 * (len t + 1)) n).
  rewrite shl8_or by lia. replace (256 * (c / 256) + c mod 256) with c by lia. reflexivity.
Qed.
Lemma ucs2_stops k i n : n <= i -> decodeUcs2_loop k i n = ([], k).
Proof. intro H. destruct k; cbn [decodeUcs2_loop]; replace (i <? n) with false by lia; reflexivity. Qed.
Lemma ucs2_octets t : bmp t -> octets_ok (ucs2_be t).
Proof. induction 1 as [|c t Hc Ht IH]; [constructor|]. cbn [ucs2_be]. constructor; [lia|]. constructor; [lia|auto]. Qed.
Theorem trailing_ucs2 smsc smscf first oa oaf pid dcs t q es hdr text hidden more :
  std_smsc smsc smscf -> 0 <= first < 256 -> mti first = 0 -> std_address oa oaf -> type_of_number (nth 1 oaf 0) <> 5 ->
  in_octet pid -> 0 <= dcs < 64 -> ts23038_alphabet dcs = 2 -> sms_time t q -> header_of first es hdr -> bmp text -> bmp hidden ->
  len hdr + 2 * len text <= 255 -> len hdr <= 2 * len hidden <= len hdr + 1 -> octets_ok more ->
  exists udh, match es, udh with None, None => True | Some l, Some os => Forall2 element_object l os | _, _ => False end /\
    let data := deliver_octets smscf first oaf pid dcs (timestamp_of t q) (len hdr + 2 * len text) (hdr ++ ucs2_be text ++ ucs2_be hidden ++ more) in
    decodeSmsPdu_bytes data = Ok (mk_sms smsc (len data - len smscf) (SmsDeliver (Some oa) pid t udh (text ++ hidden))).
Proof.
  intros Hs Hf Hm Ha Nt Hp Hd Al Ht Hh B B2 Hu L Om. destruct (std_reads oa oaf Ha ltac:(tauto)) as (oa' & Ra & Da). assert (oa' = oa) as -> by (destruct Ra; congruence).
  pose proof (len_nonneg hdr). pose proof (len_nonneg text). pose proof (len_nonneg hidden).
  assert (Oh : octets_ok (hdr ++ ucs2_be text)) by (apply (sent_octets first es hdr 2 text (len hdr + 2 * len text)); auto; constructor; auto).
  destruct (udh_part_ok first es hdr (ucs2_be text ++ ucs2_be hidden ++ more) Hh) as (udh & P & Hes). exists udh. split; auto. cbv zeta.
  destruct (deliver_general smsc smscf first oaf oa pid dcs t q (len hdr + 2 * len text) (hdr ++ ucs2_be text ++ ucs2_be hidden ++ more)) as [D _]; auto; try (unfold in_octet; lia).
  { rewrite app_assoc. apply Forall_app. split; auto. apply Forall_app. split; auto. apply ucs2_octets; auto. }
  rewrite D, (coding_right dcs 2); auto; try (unfold in_octet; lia); try (left; lia). unfold decodeUserData. fold (udh_part (udhi first) (hdr ++ ucs2_be text ++ ucs2_be hidden ++ more)).
  rewrite P. cbn [bind]. change (2 =? 0) with false. change (2 =? 2) with true. cbv iota. unfold decodeUcs2. rewrite ucs2_pairs by (auto; lia).
  rewrite ucs2_pairs by (auto; lia). rewrite ucs2_stops by lia. rewrite app_nil_r. reflexivity.
Qed.

(** ** Septets *)
Lemma bit_app w a b k : 0 < w -> 0 <= k -> bit w (a ++ b) (w * len a + k) = bit w b k.
Proof.
  intros Hw Hk. unfold bit. pose proof (len_nonneg a). replace (w * len a + k) with (k + len a * w) by lia.
  rewrite Z.div_add, Z.mod_add by lia. assert (0 <= k / w) by (apply Z.div_pos; lia).
  rewrite app_nth2 by (unfold len in *; lia). f_equal. f_equal. unfold len in *. lia.
Qed.
Lemma bit_prefix w a b k : 0 < w -> 0 <= k < w * len a -> bit w (a ++ b) k = bit w a k.
Proof.
  intros Hw Hk. unfold bit. assert (0 <= k / w < len a) by (split; [apply Z.div_pos; lia|apply Z.div_lt_upper_bound; lia]).
  rewrite app_nth1 by (unfold len in *; lia). reflexivity.
Qed.
Lemma bits_inj a : forall b, septets_ok a -> septets_ok b -> len a = len b -> (forall k, 0 <= k < 7 * len a -> bit 7 a k = bit 7 b k) -> a = b.
Proof.
  intros b Oa Ob L H. apply (vle_inj 128); auto; try lia; [unfold len in L; lia|].
  apply Z.bits_inj'. intros k Hk. change 128 with (2 ^ 7). rewrite !testbit_vle by (auto; lia).
  destruct (Z.ltb_spec k (7 * len a)); auto. unfold bit. rewrite !nth_overflow; auto; unfold len in *; lia.
Qed.
Lemma reading_app a x : lib_reading a x -> forall b y, lib_reading b y -> lib_reading (a ++ b) (x ++ y).
Proof. induction 1; intros; cbn [app]; auto; try (econstructor; eauto; fail). Qed.
Lemma cut_app a x : lib_reading a x -> forall b, cut_escape b -> cut_escape (a ++ b).
Proof.
  induction 1; intros b Hb; cbn [app]; auto; try (apply ce_escaped; auto; fail); apply ce_basic; auto; try lia.
  intro E. assert (i = 27%nat) as -> by lia. discriminate.
Qed.
Theorem trailing_septets smsc smscf first oa oaf pid dcs t q s v text more :
  std_smsc smsc smscf -> 0 <= first < 256 -> mti first = 0 -> udhi first = false -> std_address oa oaf -> type_of_number (nth 1 oaf 0) <> 5 ->
  in_octet pid -> in_octet dcs -> ts23038_alphabet dcs = 0 -> sms_time t q -> septets_ok s -> lib_reading s text -> septet_stream 0 s v -> len s <= 255 ->
  8 <= len s -> octets_ok more -> more <> [] ->
  let taken := firstn (Z.to_nat (len s)) (v ++ more) in
  exists extra, extra <> [] /\ septets_ok extra /\
    (forall k, 0 <= k < 7 * len extra -> bit 7 extra k = bit 8 (v ++ more) (7 * len s + k)) /\
    len s + len extra = len taken + (len taken - 1) / 7 + (if (len taken mod 7 =? 0) && negb (last taken 0 / 2 =? 0) then 1 else 0) /\
    let data := deliver_octets smscf first oaf pid dcs (timestamp_of t q) (len s) (v ++ more) in
    ((exists rest, lib_reading extra rest /\ decodeSmsPdu_bytes data = Ok (mk_sms smsc (len data - len smscf) (SmsDeliver (Some oa) pid t None (text ++ rest)))) \/
     (cut_escape extra /\ decodeSmsPdu_bytes data = Err StopIteration)).
Proof.
  intros Hs Hf Hm Hh Ha Nt Hp Hd Al Ht Os Rd Sv L L8 Om Nm taken.
  destruct (std_reads oa oaf Ha ltac:(tauto)) as (oa' & Ra & Da). assert (oa' = oa) as -> by (destruct Ra; congruence).
  pose proof Sv as [Ov [Lv Bv]]. 
  destruct (deliver_general smsc smscf first oaf oa pid dcs t q (len s) (v ++ more)) as [D _]; auto; [unfold in_octet; lia|apply Forall_app; auto|].
  destruct (unpack_final (v ++ more) (Some (len s))) as (out & U & Oo & B & Lo); [apply Forall_app; auto| |lia|].
  { intro E. apply app_eq_nil in E as [_ E]. auto. }
  cbv zeta in *. fold taken in B, Lo.
  assert (Lm : 1 <= len more) by (destruct more; [congruence|rewrite len_cons; pose proof (len_nonneg more); lia]).
  assert (Lt : len taken = Z.min (len s) (len v + len more)).
  { unfold taken, len in *. rewrite firstn_length, app_length. lia. }
  assert (Wt : v ++ more = taken ++ skipn (Z.to_nat (len s)) (v ++ more)) by (unfold taken; rewrite firstn_skipn; reflexivity).
  set (n := Z.to_nat (len s)) in *.
  assert (Lon : len s + 1 <= len out <= 8 * len taken / 7).
  { rewrite Lo. destruct (Z.eqb_spec (len taken mod 7) 0); cbn [andb]; [destruct (negb _)|]; lia. }
  assert (Eout : out = firstn n out ++ skipn n out) by (rewrite firstn_skipn; reflexivity).
  assert (Lf : len (firstn n out) = len s) by (unfold n, len in *; rewrite firstn_length; lia).
  assert (Le : len out = len s + len (skipn n out)) by (rewrite Eout at 1; unfold len in *; rewrite app_length; lia).
  pose proof Oo as Oo'. rewrite Eout in Oo'. apply Forall_app in Oo' as [Of Oe].
  assert (Es : firstn n out = s).
  { apply bits_inj; auto. intros k Hk. rewrite Lf in Hk. rewrite <- (bit_prefix 7 _ (skipn n out)) by lia. rewrite <- Eout, B by lia.
    rewrite <- (bit_prefix 8 taken (skipn n (v ++ more))) by lia. rewrite <- Wt. rewrite bit_prefix by lia. rewrite Bv by lia.
    replace (k <? 0) with false by lia. f_equal. lia. }
  exists (skipn n out). split; [intro E; rewrite E in Le; change (len (@nil Z)) with 0 in Le; lia|]. split; [auto|]. split; [|split].
  - intros k Hk. rewrite <- (bit_app 7 s) by lia. rewrite <- Es at 1. rewrite <- Eout, B by lia. rewrite Wt, bit_prefix by lia. reflexivity.
  - rewrite <- Le. exact Lo.
  - rewrite D, (coding_right dcs 0) by auto. rewrite Hh. unfold decodeUserData. cbn [bind]. change (0 =? 0) with true. cbv iota. cbn [bind]. rewrite U. cbn [bind].
    assert (Eo : out = s ++ skipn n out) by (rewrite Eout at 1; rewrite Es; reflexivity).
    destruct (septets_read _ Oe) as [(rest & R & E)|[C E]].
    + left. exists rest. split; auto. rewrite Eo at 1. rewrite (lib_reads _ _ (reading_app _ _ Rd _ _ R)). reflexivity.
    + right. split; auto. rewrite Eo at 1. rewrite (cut_reads (s ++ skipn n out)); auto; [apply Forall_app; auto|]. eapply cut_app; eauto.
Qed.
Theorem trailing_short smsc smscf first oa oaf pid dcs t q s v text more :
  std_smsc smsc smscf -> 0 <= first < 256 -> mti first = 0 -> udhi first = false -> std_address oa oaf -> type_of_number (nth 1 oaf 0) <> 5 ->
  in_octet pid -> in_octet dcs -> ts23038_alphabet dcs = 0 -> sms_time t q -> septets_ok s -> s <> [] -> lib_reading s text -> septet_stream 0 s v ->
  len s <= 7 -> octets_ok more ->
  let data := deliver_octets smscf first oaf pid dcs (timestamp_of t q) (len s) (v ++ more) in
  decodeSmsPdu_bytes data = Ok (mk_sms smsc (len data - len smscf) (SmsDeliver (Some oa) pid t None text)).
Proof.
  intros Hs Hf Hm Hh Ha Nt Hp Hd Al Ht Os Ns Rd Sv L Om. cbv zeta.
  destruct (std_reads oa oaf Ha ltac:(tauto)) as (oa' & Ra & Da). assert (oa' = oa) as -> by (destruct Ra; congruence).
  pose proof Sv as [Ov [Lv Bv]]. assert (0 < len s) by (destruct s; [congruence|rewrite len_cons; pose proof (len_nonneg s); lia]).
  destruct (deliver_general smsc smscf first oaf oa pid dcs t q (len s) (v ++ more)) as [D _]; auto; [unfold in_octet; lia|apply Forall_app; auto|].
  assert (Lv' : len v = len s) by lia.
  destruct (unpack_final (v ++ more) (Some (len s))) as (out & U & Oo & B & Lo); [apply Forall_app; auto| |lia|].
  { intro E. apply app_eq_nil in E as [-> _]. change (len (@nil Z)) with 0 in Lv'. lia. }
  cbv zeta in *. assert (Tk : firstn (Z.to_nat (len s)) (v ++ more) = v).
  { rewrite <- Lv'. unfold len. rewrite Nat2Z.id. rewrite firstn_app, firstn_all, Nat.sub_diag. cbn. apply app_nil_r. }
  rewrite Tk in B, Lo. 
  assert (Top : len v mod 7 = 0 -> last v 0 / 2 = 0).
  { intro M. assert (len v = 7) as L7 by lia.
    assert (Nv : v <> []) by (intros ->; change (len (@nil Z)) with 0 in L7; lia).
    destruct (exists_last Nv) as (a & x & Ev). rewrite Ev, last_last. apply Forall_forall with (x := x) in Ov; [|rewrite Ev; apply in_or_app; right; left; reflexivity].
    assert (La : len a = 6) by (rewrite Ev in L7; unfold len in *; rewrite app_length in L7; simpl in L7; lia).
    apply Z.bits_inj'. intros k Hk. rewrite Z.testbit_0_l. change 2 with (2 ^ 1). rewrite Z.div_pow2_bits by lia.
    destruct (Z.ltb_spec (k + 1) 8).
    - specialize (Bv (8 * len a + (k + 1)) ltac:(lia)). rewrite Ev in Bv at 1. rewrite bit_app in Bv by lia. unfold bit at 1 in Bv.
      rewrite Z.div_small, Z.mod_small in Bv by lia. cbn [nth] in Bv. change (Z.to_nat 0) with 0%nat in Bv. cbn [nth] in Bv. rewrite Bv. replace (8 * len a + (k + 1) <? 0) with false by lia.
      unfold bit. rewrite nth_overflow, Z.testbit_0_l; auto. unfold len in *. lia.
    - destruct (Z.eqb_spec x 0) as [->|Nx]; [apply Z.testbit_0_l|]. apply Z.bits_above_log2; [lia|]. assert (Z.log2 x < 8) by (apply Z.log2_lt_pow2; lia). lia. }
  assert (Lout : len out = len s).
  { rewrite Lo. destruct (Z.eqb_spec (len v mod 7) 0) as [M|M]; cbn [andb]; [rewrite (Top M); cbn [Z.eqb negb]|]; lia. }
  assert (Es : out = s).
  { apply bits_inj; auto. intros k Hk. rewrite B by lia. rewrite Bv by lia. replace (k <? 0) with false by lia. f_equal. lia. }
  rewrite D, (coding_right dcs 0) by auto. rewrite Hh. unfold decodeUserData. cbn [bind]. change (0 =? 0) with true. cbv iota. cbn [bind]. rewrite U. cbn [bind].
  rewrite Es, (lib_reads _ _ Rd). reflexivity.
Qed.
