(** The codec properties in the form in which [PropertiesCodec] states them. *)
From Verif Require Import Base PduModel PduSpec SeptetProofs Gsm7Proofs FieldProofs TimeProofs.
From Coq Require Import ZifyBool.
Ltac Zify.zify_post_hook ::= Z.div_mod_to_equations.

Lemma semi_roundtrip d : digits_ok d ->
  exists o, encodeSemiOctets d = Ok o /\ 2 * len o = len d + len d mod 2 /\
    decodeSemiOctets o None = (d, []) /\
    (d <> [] -> forall tail, decodeSemiOctets (o ++ tail) (Some (len o)) = (d, tail)).
Proof.
  intro H. exists (semi d). split; [apply encode_semi; auto|]. split; [apply semi_len|].
  split; [apply decode_semi_all; auto|]. intros; apply decode_semi; auto.
Qed.

Lemma semi_wire d : digits_ok d -> exists o, encodeSemiOctets d = Ok o /\ semi_octets d o.
Proof.
  intro H. exists (semi d). split; [apply encode_semi; auto|]. split; [apply semi_octets_ok; auto|].
  split; [apply semi_len|]. apply semi_layout; auto.
Qed.

Lemma gsm7_roundtrip_final t r : ~ In 0x1B t -> encodeGsm7 t false = Ok r -> decodeGsm7 r = Ok t.
Proof. intros Hn E. eapply gsm7_roundtrip; eauto using encode_ok_inv. Qed.

Lemma encode_discard_255 t : In 255 t -> encodeGsm7 t true = Err TypeError.
Proof.
  induction t as [|c t IH]; [contradiction|]. cbn [In]. intros [->|H].
  - reflexivity.
  - specialize (IH H). cbn [encodeGsm7]. rewrite IH.
    destruct (negb (find_char c GSM7_BASIC 0 =? -1)); [reflexivity|].
    destruct (assoc c GSM7_EXTENDED) as [[v|v]|]; reflexivity.
Qed.

Lemma gsm7_accepts t :
  ((exists r, encodeGsm7 t false = Ok r) <-> Forall encodable t) /\
  (forall r, encodeGsm7 t false = Ok r -> septets_ok r /\ text_weight t (len r)) /\
  (forall p c q, t = p ++ c :: q -> Forall encodable p -> ~ encodable c ->
     encodeGsm7 t false = Err (if c =? 255 then TypeError else ValueError)) /\
  (forall f, (forall c, f c = true <-> encodable c) -> ~ In 255 t ->
     encodeGsm7 t true = encodeGsm7 (filter f t) false) /\
  (In 255 t -> encodeGsm7 t true = Err TypeError).
Proof.
  split; [|split; [|split; [|split]]].
  - split; [intros [r E]; eapply encode_ok_inv; eauto|].
    intro H. destruct (encode_ok t H false) as (r & E & _). eauto.
  - intros r E. destruct (encode_ok t (encode_ok_inv _ _ E) false) as (r' & E' & H). congruence.
  - intros p c q -> Hp Hc. apply encode_first_bad; auto.
  - intros f Hf Hn. apply encode_discard; auto.
  - apply encode_discard_255.
Qed.

Lemma gsm7_tables :
  (forall i, (i < 128)%nat -> i <> 0x1B%nat -> i <> 0x5F%nat ->
    exists c, nth_error ts23038_basic i = Some (Some c) /\
      decodeGsm7 [Z.of_nat i] = Ok [c] /\ encodeGsm7 [c] false = Ok [Z.of_nat i]) /\
  (nth_error ts23038_basic 0x5F = Some (Some 0xA7) /\
   decodeGsm7 [0x5F] = Ok [0x60] /\ encodeGsm7 [0xA7] false = Err ValueError) /\
  (forall p, 0 <= p < 128 -> p <> 0x0A ->
    (forall c, In (p, c) ts23038_ext -> decodeGsm7 [0x1B; p] = Ok [c] /\ encodeGsm7 [c] false = Ok [0x1B; p]) /\
    ((forall c, ~ In (p, c) ts23038_ext) -> decodeGsm7 [0x1B; p] = Ok [])) /\
  (In (0x0A, 0x0C) ts23038_ext /\ decodeGsm7 [0x1B; 0x0A] = Ok [] /\ encodeGsm7 [0x0C] false = Err ValueError).
Proof.
  split; [exact std_table_decode|]. split; [repeat split; vm_compute; reflexivity|].
  split; [exact std_ext_decode|]. split; [simpl; auto|split; vm_compute; reflexivity].
Qed.

Lemma pack_final s padBits : septets_ok s -> 0 <= padBits <= 6 -> (padBits = 0 -> s <> []) ->
  exists o, packSeptets s padBits = Ok o /\
    septet_stream (if padBits =? 0 then 0 else 7 - padBits) s o.
Proof.
  intros Hs Hp Hn. destruct (packSeptets_spec s padBits Hs Hp Hn) as (o & E & H).
  exists o. split; auto. apply stream_val_spec; auto. unfold fill_of_pad.
  destruct (padBits =? 0); lia.
Qed.

Lemma unpack_pack s : septets_ok s -> s <> [] ->
  exists o, packSeptets s 0 = Ok o /\
    unpackSeptets o None None 7 =
      Ok (if (len s mod 8 =? 0) && (last s 1 =? 0) then removelast s else s, []).
Proof.
  intros Hs Hn. destruct (packSeptets_spec s 0 Hs ltac:(lia) ltac:(auto)) as (o & E & H).
  exists o. split; auto. rewrite (unpack_stream0 s o None Hs Hn H I). unfold lossy.
  replace ((0 + 7 * len s) mod 8 =? 0) with (len s mod 8 =? 0) by lia. reflexivity.
Qed.

Lemma firstn_len_ok {A} (P : A -> Prop) n l : Forall P l -> Forall P (firstn n l).
Proof. revert n; induction l; intros [|n] H; simpl; auto; inversion H; subst; constructor; auto. Qed.

Lemma last_octet_top o : octets_ok o -> o <> [] -> 0 < len o /\
  vle 256 o / (2 * 256 ^ (len o - 1)) = last o 0 / 2.
Proof.
  intros Ho Hn. destruct (exists_last Hn) as (l & x & ->).
  apply Forall_app in Ho as [Hl Hx]. inversion Hx; subst.
  rewrite last_last, vle_snoc. autorewrite with len.
  replace (len l + (0 + 1) - 1) with (len l) by lia.
  pose proof (vle_bound 256 l ltac:(lia) Hl) as B. pose proof (len_nonneg l). split; [lia|].
  assert (0 < 256 ^ len l) by (apply Z.pow_pos_nonneg; lia).
  rewrite (Z.mul_comm 2), <- Z.div_div by lia.
  rewrite (Z.mul_comm (256 ^ len l) x), Z.div_add by lia. rewrite (Z.div_small (vle 256 l)) by lia.
  rewrite Z.add_0_l. reflexivity.
Qed.

Lemma unpack_final o n : octets_ok o -> o <> [] ->
  match n with Some m => 1 <= m | None => True end ->
  let taken := match n with Some m => firstn (Z.to_nat m) o | None => o end in
  let left := match n with Some m => skipn (Z.to_nat m) o | None => [] end in
  let m := len taken in
  exists out, unpackSeptets o n None 7 = Ok (out, left) /\ septets_ok out /\
    (forall k, 0 <= k < 7 * len out -> bit 7 out k = bit 8 taken k) /\
    len out = m + (m - 1) / 7 + (if (m mod 7 =? 0) && negb (last taken 0 / 2 =? 0) then 1 else 0).
Proof.
  intros Ho Hne Hn taken left m.
  destruct (unpackSeptets_None_spec o n Ho Hne Hn) as (out & E & Hs & rest & Hr & Hv & Hl).
  fold taken left in E, Hv, Hl. fold m in Hl.
  exists out. split; auto. split; auto.
  assert (Htk : octets_ok taken) by (unfold taken; destruct n; auto; apply firstn_len_ok; auto).
  assert (Htn : taken <> []).
  { unfold taken. destruct n as [k|]; auto. destruct o; [congruence|].
    destruct (Z.to_nat k) eqn:K; [clear - Hn K; cbv beta iota in Hn; lia|]. simpl. discriminate. }
  destruct (last_octet_top taken Htk Htn) as [Hm Htop]. fold m in Hm, Htop.
  split.
  - intros k Hk. rewrite <- (testbit_vle 7), <- (testbit_vle 8) by (auto; lia).
    change (2 ^ 7) with 128. change (2 ^ 8) with 256. rewrite <- Hv.
    assert (P7 : 128 ^ len out = 2 ^ (7 * len out))
      by (change 128 with (2 ^ 7); rewrite <- Z.pow_mul_r by lia; reflexivity).
    rewrite <- (Z.mod_pow2_bits_low (vle 128 out + _) (7 * len out) k) by lia.
    rewrite P7, Z.mul_comm, Z_mod_plus_full, Z.mod_small; auto.
    rewrite <- P7. apply vle_bound; auto. lia.
  - set (K := 0 + 8 * m) in *.
    assert (P8 : m mod 7 = 0 -> 2 * 256 ^ (m - 1) = 128 ^ (K / 7 - 1)).
    { intro M. change 256 with (2 ^ 8). change 128 with (2 ^ 7).
      rewrite <- !Z.pow_mul_r by lia. rewrite <- Z.pow_succ_r by lia. f_equal. lia. }
    pose proof (vle_bound 128 out ltac:(lia) Hs) as Bo.
    destruct (Z.eqb_spec (m mod 7) 0) as [M|M]; simpl andb.
    + rewrite (P8 M) in Htop.
      assert (0 < 128 ^ (K / 7 - 1)) by (apply Z.pow_pos_nonneg; lia).
      destruct Hl as [[Hl Hz]|(Hl & _ & Hr0)].
      * specialize (Hz ltac:(lia)). pose proof (septets_last_big out Hs Hz) as Hb. rewrite Hl in Hb.
        assert (0 < 128 ^ len out) by (apply Z.pow_pos_nonneg; [lia|apply len_nonneg]).
        assert (128 ^ (K / 7 - 1) <= vle 256 taken) by nia.
        assert (1 <= last taken 0 / 2) by (rewrite <- Htop; apply Z.div_le_lower_bound; lia).
        replace (last taken 0 / 2 =? 0) with false by lia. simpl. lia.
      * assert (vle 256 taken < 128 ^ (K / 7 - 1)) by (rewrite <- Hl, <- Hv, Hr0; lia).
        rewrite Z.div_small in Htop by (pose proof (vle_bound 256 taken ltac:(lia) Htk); lia).
        rewrite <- Htop. simpl. lia.
    + destruct Hl as [[Hl _]|(_ & Hx & _)]; lia.
Qed.

Lemma ucs2_final t tail : Forall (fun c => 0 <= c) t ->
  (bmp t -> encodeUcs2 t = Ok (ucs2_be t) /\ len (ucs2_be t) = 2 * len t /\
            decodeUcs2 (ucs2_be t ++ tail) (2 * len t) = (t, tail)) /\
  (~ bmp t -> encodeUcs2 t = Err ValueError).
Proof.
  intro Hp. split.
  - intro H. split; [apply encodeUcs2_ok; auto|]. split; [apply ucs2_len|].
    unfold decodeUcs2. apply decodeUcs2_ok; auto.
  - intro H. apply encodeUcs2_bad; auto.
Qed.

Lemma timestamp_final t q tail : sms_time t q ->
  exists o, encodeTimestamp t = Ok o /\
    o = ts23040_timestamp (dt_year t) (dt_month t) (dt_day t) (dt_hour t) (dt_minute t) (dt_second t) q /\
    decodeTimestamp (o ++ tail) = Ok (t, tail).
Proof.
  intro H. eexists. split; [apply encodeTimestamp_ok; eauto|]. split; auto. apply decodeTimestamp_ok; auto.
Qed.
Lemma timestamp_naive t : dt_utcoff t = None -> encodeTimestamp t = Err ValueError.
Proof. intro H. unfold encodeTimestamp. rewrite H. reflexivity. Qed.
