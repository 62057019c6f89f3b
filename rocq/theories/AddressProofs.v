(** Proofs about address fields. *)
From Verif Require Import Base PduModel PduSpec SmsSpec SeptetProofs Gsm7Proofs FieldProofs.
From Coq Require Import ZifyBool.
Ltac Zify.zify_post_hook ::= Z.div_mod_to_equations.

Lemma semi_unique d v : digits_ok d -> semi_octets d v -> v = semi d.
Proof.
  intros Hd (_ & HL & Hn). pose proof (semi_len d) as HL'.
  assert (length v = length (semi d)) as E by (unfold len in *; lia).
  apply (nth_ext _ _ 0 0); auto. intros i Hi.
  rewrite Hn by auto. rewrite semi_layout by (auto; lia). reflexivity.
Qed.
Lemma semi_spec d : digits_ok d -> semi_octets d (semi d).
Proof. intro H. split; [apply semi_octets_ok; auto|]. split; [apply semi_len|apply semi_layout; auto]. Qed.

(** ** GSM-7 decoding of a possibly shortened septet list *)
Lemma encodeGsm7_app a b d : encodeGsm7 (a ++ b) d =
  let* x := encodeGsm7 a d in let* y := encodeGsm7 b d in Ok (x ++ y).
Proof.
  induction a as [|c a IH]; simpl app.
  - simpl. destruct (encodeGsm7 b d); reflexivity.
  - rewrite !encodeGsm7_cons. destruct (classify c); try destruct d; cbn [negb]; rewrite ?IH;
      try reflexivity; destruct (encodeGsm7 a _); try reflexivity; cbn [bind];
      destruct (encodeGsm7 b _); reflexivity.
Qed.

Lemma classify_64 : classify 64 = EBasic 0.
Proof. reflexivity. Qed.
Lemma classify_0 c : classify c = EBasic 0 -> c = 64.
Proof. intro H. apply classify_basic in H as (_ & _ & H). simpl in H. congruence. Qed.
Lemma classify_ext_pos c v : classify c = EExt v -> v <> 0.
Proof.
  unfold classify. destruct (negb _); [discriminate|].
  destruct (assoc c GSM7_EXTENDED) as [w|] eqn:E; [|discriminate].
  apply assoc_in in E.
  assert (forallb (fun cv => match snd cv with VChr v => negb (v =? 0) | _ => true end) GSM7_EXTENDED = true) as F by (vm_compute; reflexivity).
  rewrite forallb_forall in F. specialize (F _ E). simpl in F. destruct w; [|discriminate].
  intros [= <-]. lia.
Qed.

(** the last septet is 0 exactly when the last character is '@' *)
Lemma encode_last t s : encodeGsm7 t false = Ok s -> t <> [] ->
  (last t 0 = 64 /\ last s 1 = 0 /\ encodeGsm7 (removelast t) false = Ok (removelast s)) \/
  (last t 0 <> 64 /\ last s 1 <> 0).
Proof.
  intros E Hne. destruct (exists_last Hne) as (t' & c & ->). rewrite last_last, removelast_last.
  rewrite encodeGsm7_app in E. destruct (encodeGsm7 t' false) as [s'|] eqn:E'; [|discriminate].
  cbn [bind] in E. rewrite encodeGsm7_cons in E. cbn [encodeGsm7 bind] in E.
  destruct (classify c) eqn:C; cbn [bind negb] in E; try discriminate; injection E as <-.
  - rewrite last_last, removelast_last. destruct (Z.eq_dec i 0) as [->|Hi].
    + left. apply classify_0 in C. auto.
    + right. split; auto. intros ->. rewrite classify_64 in C. congruence.
  - right. replace (s' ++ [27; v]) with ((s' ++ [27]) ++ [v]) by (rewrite <- app_assoc; reflexivity).
    rewrite last_last. split; [intros ->; rewrite classify_64 in C; discriminate|].
    eapply classify_ext_pos; eauto.
Qed.

Lemma text_weight_fun t n : text_weight t n -> forall m, text_weight t m -> n = m.
Proof.
  induction 1 as [|c w t n Hw Ht IH]; intros m Hm; inversion Hm; subst; auto.
  f_equal; [|auto].
  match goal with H : weight_spec _ _ |- _ => destruct H as [[H2 ->]|[H2 ->]] end;
  destruct Hw as [[H1 ->]|[H1 ->]]; auto; exfalso; eapply basic_ext_disjoint; eauto.
Qed.

Lemma not_in_removelast {A} (x : A) l : ~ In x l -> ~ In x (removelast l).
Proof.
  intros H F. destruct l as [|y l]; [exact (H F)|]. apply H.
  rewrite (app_removelast_last y (l := y :: l)) by discriminate. apply in_or_app. auto.
Qed.

(** what the decoder returns for a packed text *)
Lemma decode_lossy fill t s : encodeGsm7 t false = Ok s -> t <> [] -> ~ In 27 t ->
  exists t', decodeGsm7 (lossy fill s) = Ok t' /\ gsm7_received fill t t'.
Proof.
  intros E Hne Hn. unfold lossy.
  destruct (encode_ok t (encode_ok_inv _ _ E) false) as (r & E' & _ & Hw).
  rewrite E in E'. injection E' as <-.
  assert (decodeGsm7 s = Ok t) as D by (eapply gsm7_roundtrip; eauto using encode_ok_inv).
  destruct (encode_last t s E Hne) as [(H1 & H2 & H3)|(H1 & H2)].
  - rewrite H2, Z.eqb_refl, andb_true_r. destruct ((fill + 7 * len s) mod 8 =? 0) eqn:F.
    + exists (removelast t). split.
      * eapply gsm7_roundtrip; [|eapply encode_ok_inv; eauto|exact H3]. apply not_in_removelast; auto.
      * econstructor 2; eauto. unfold drops_final_at. rewrite F, H1. reflexivity.
    + exists t. split; auto. econstructor 1; eauto. unfold drops_final_at. rewrite F. reflexivity.
  - replace (last s 1 =? 0) with false by lia. rewrite andb_false_r. exists t. split; auto.
    econstructor 1; eauto. unfold drops_final_at. replace (last t 0 =? 64) with false by lia. apply andb_false_r.
Qed.

(** The result is a function of the text. *)
Lemma gsm7_received_fun fill t t1 t2 : gsm7_received fill t t1 -> gsm7_received fill t t2 -> t1 = t2.
Proof.
  intros [n W D|n W D] [m W' D'|m W' D']; auto; rewrite (text_weight_fun _ _ W _ W') in D; congruence.
Qed.

(** ** Encoding addresses *)
Lemma isdigit_spec s : isdigit s = true <-> digits_ok s /\ s <> [].
Proof.
  unfold isdigit. destruct s as [|c s]; [split; [discriminate|intros [_ []]; auto]|].
  rewrite forallb_forall. unfold digits_ok. rewrite Forall_forall. unfold is_digit.
  split.
  - intro H. split; [|discriminate]. intros x Hx. specialize (H x Hx). lia.
  - intros [H _] x Hx. specialize (H x Hx). lia.
Qed.

Lemma toa_national : Z.lor (Z.lor (Z.lor 128 0) 1) 32 = 0xA1.
Proof. reflexivity. Qed.
Lemma toa_international : Z.lor (Z.lor (Z.lor 128 0) 1) 16 = 0x91.
Proof. reflexivity. Qed.
Lemma toa_alpha : Z.land (Z.lor (Z.lor (Z.lor 128 0) 1) 80) 254 = 0xD0.
Proof. reflexivity. Qed.

(** the length octet *)
Definition phone_length (smscField : bool) (d : str) : Z :=
  if smscField then len (semi d) + 1 else len d.

Lemma encode_phone a d ton sm : phone_number a d ton ->
  encodeAddressField a sm =
    let* l := byte (phone_length sm d) in Ok (l :: 128 + 16 * ton + 1 :: semi d).
Proof.
  intros (Hd & Hne & Ha). unfold encodeAddressField.
  rewrite toa_national, toa_international, toa_alpha.
  assert (isdigit d = true) as I by (apply isdigit_spec; auto).
  destruct Ha as [[-> ->]|[-> ->]].
  - rewrite I. cbn [bind]. rewrite encode_semi by auto. cbn [bind]. reflexivity.
  - replace (isdigit (43 :: d)) with false by reflexivity. rewrite I. cbn [bind andb].
    change (43 =? 43) with true. cbn [andb bind]. rewrite encode_semi by auto. reflexivity.
Qed.

Definition alphanumeric (a : str) : Prop :=
  a <> [] /\ forall d ton, ~ phone_number a d ton.

Lemma phone_or_alpha a : a <> [] -> (exists d ton, phone_number a d ton) \/ alphanumeric a.
Proof.
  intro Hne. destruct (isdigit a) eqn:I.
  - apply isdigit_spec in I as [H1 H2]. left. exists a, 2. repeat split; auto.
  - destruct a as [|c a]; [congruence|].
    destruct ((c =? 43) && isdigit a) eqn:J.
    + apply andb_true_iff in J as [J1 J2]. apply isdigit_spec in J2 as [H1 H2].
      left. exists a, 1. repeat split; auto. right. split; auto. f_equal; lia.
    + right. split; auto. intros d ton (Hd & Hn & [[<- _]|[E _]]).
      * assert (isdigit (c :: a) = true) by (apply isdigit_spec; auto). congruence.
      * injection E as -> ->. assert (isdigit d = true) by (apply isdigit_spec; auto).
        rewrite H in J. discriminate.
Qed.

Lemma encode_alpha a sm : alphanumeric a ->
  encodeAddressField a sm =
    let* s := encodeGsm7 a false in
    let* v := packSeptets s 0 in
    let* l := byte (2 * len v) in Ok (l :: 0xD0 :: v).
Proof.
  intros [Hne Hp]. unfold encodeAddressField. rewrite toa_alpha.
  destruct (isdigit a) eqn:I.
  { apply isdigit_spec in I as [H1 H2]. exfalso. apply (Hp a 2). repeat split; auto. }
  destruct a as [|c a]; [congruence|].
  destruct ((c =? 43) && isdigit a) eqn:J.
  { apply andb_true_iff in J as [J1 J2]. apply isdigit_spec in J2 as [H1 H2].
    exfalso. apply (Hp a 1). repeat split; auto. right. split; auto. f_equal; lia. }
  cbn [bind]. destruct (encodeGsm7 (c :: a) false) as [s|]; [|reflexivity]. cbn [bind].
  destruct (packSeptets s 0) as [v|]; [|reflexivity]. cbn [bind].
  rewrite Z.mul_comm. reflexivity.
Qed.

(** ** Decoding addresses *)
Lemma ton_land toa : 0 <= toa < 256 -> Z.land toa 112 = 16 * type_of_number toa.
Proof.
  intro H. unfold type_of_number. change 112 with (Z.shiftl 7 4).
  assert (forallb (fun k => Z.land k 112 =? 16 * ((k / 16) mod 8)) (map Z.of_nat (seq 0 256)) = true) as F by (vm_compute; reflexivity).
  rewrite forallb_forall in F. specialize (F toa). change (Z.shiftl 7 4) with 112.
  assert (In toa (map Z.of_nat (seq 0 256))) as I
    by (apply in_map_iff; exists (Z.to_nat toa); split; [lia|apply in_seq; lia]).
  specialize (F I). lia.
Qed.

Lemma semi_nonempty d : d <> [] -> 1 <= len (semi d).
Proof.
  intro H. pose proof (semi_len d). destruct d; [congruence|].
  rewrite len_cons in *. pose proof (len_nonneg d). lia.
Qed.

Lemma decode_phone_field d toa tail sm : digits_ok d -> d <> [] -> 0 <= toa < 256 ->
  type_of_number toa <> 5 ->
  decodeAddressField (phone_length sm d :: toa :: semi d ++ tail) sm =
    Ok ((Some (if type_of_number toa =? 1 then 43 :: d else d), len (semi d) + 2), tail).
Proof.
  intros Hd Hne Ht H5. unfold decodeAddressField. cbn [next bind].
  pose proof (semi_nonempty d Hne) as Hs. pose proof (semi_len d) as Hl.
  replace (0 <? phone_length sm d) with true by (unfold phone_length; destruct sm; lia).
  rewrite ton_land by auto.
  replace (16 * type_of_number toa =? 80) with false by lia.
  replace (16 * type_of_number toa =? 16) with (type_of_number toa =? 1) by lia.
  destruct sm; unfold phone_length.
  - replace (len (semi d) + 1 - 1) with (len (semi d)) by lia.
    rewrite decode_semi by auto. destruct (type_of_number toa =? 1); do 3 f_equal; lia.
  - replace (if len d mod 2 =? 0 then len d / 2 else len d / 2 + 1) with (len (semi d))
      by (destruct (Z.eqb_spec (len d mod 2) 0); lia).
    rewrite decode_semi by auto. destruct (type_of_number toa =? 1); do 3 f_equal; lia.
Qed.

Lemma decode_alpha_field t s v l toa tail sm : encodeGsm7 t false = Ok s -> t <> [] -> ~ In 27 t ->
  stream_val 0 s v -> octets_ok tail -> 0 <= toa < 256 -> type_of_number toa = 5 ->
  (l + 1) / 2 = len v ->
  exists t', gsm7_received 0 t t' /\
    decodeAddressField (l :: toa :: v ++ tail) sm = Ok ((Some t', len v + 2), tail).
Proof.
  intros E Hne Hn Hv Htl Ht H5 Hl.
  destruct (encode_ok t (encode_ok_inv _ _ E) false) as (r & E' & Hs & Hw).
  rewrite E in E'. injection E' as <-.
  assert (s <> []) as Hse.
  { intros ->. destruct t as [|c t]; [congruence|]. rewrite encodeGsm7_cons in E.
    destruct (classify c); try discriminate; destruct (encodeGsm7 t false); discriminate. }
  destruct (decode_lossy 0 t s E Hne Hn) as (t' & D & R). exists t'. split; auto.
  unfold decodeAddressField. cbn [next bind].
  assert (1 <= len v) as Hv1.
  { destruct Hv as (_ & HL & _). destruct s; [congruence|]. rewrite len_cons in HL. pose proof (len_nonneg s). lia. }
  replace (0 <? l) with true by lia.
  rewrite ton_land by auto. rewrite H5. change (16 * 5 =? 80) with true. cbv iota.
  rewrite Hl. rewrite (unpack_stream0_prefix s v tail Hs Hse Hv Htl). cbn [bind].
  rewrite D. reflexivity.
Qed.

Lemma type_of_toa ton : 0 <= ton < 8 -> type_of_number (128 + 16 * ton + 1) = ton.
Proof. unfold type_of_number. lia. Qed.

Lemma encode_nonempty t s : encodeGsm7 t false = Ok s -> t <> [] -> s <> [].
Proof.
  intros E Hne ->. destruct t as [|c t]; [congruence|]. rewrite encodeGsm7_cons in E.
  destruct (classify c); try discriminate; destruct (encodeGsm7 t false); discriminate.
Qed.

(** ** Final forms *)
Lemma phone_final a d ton : phone_number a d ton ->
  (len d <= 255 -> exists v, semi_octets d v /\
     encodeAddressField a false = Ok (len d :: 128 + 16 * ton + 1 :: v) /\
     forall tail, decodeAddressField ((len d :: 128 + 16 * ton + 1 :: v) ++ tail) false
                  = Ok ((Some a, len v + 2), tail)) /\
  (255 < len d -> encodeAddressField a false = Err ValueError) /\
  (len d <= 508 -> exists v, semi_octets d v /\
     encodeAddressField a true = Ok (len v + 1 :: 128 + 16 * ton + 1 :: v) /\
     forall tail, decodeAddressField ((len v + 1 :: 128 + 16 * ton + 1 :: v) ++ tail) true
                  = Ok ((Some a, len v + 2), tail)) /\
  (508 < len d -> encodeAddressField a true = Err ValueError).
Proof.
  intro H. pose proof H as (Hd & Hne & Ha). pose proof (semi_len d) as Hl.
  rewrite !(encode_phone a d ton) by auto.
  assert (0 <= ton < 8) as Ht by (destruct Ha as [[_ ->]|[_ ->]]; lia).
  assert ((if type_of_number (128 + 16 * ton + 1) =? 1 then 43 :: d else d) = a) as Ea.
  { rewrite type_of_toa by auto. destruct Ha as [[-> ->]|[-> ->]]; reflexivity. }
  assert (type_of_number (128 + 16 * ton + 1) <> 5) as H5
    by (rewrite type_of_toa by auto; destruct Ha as [[_ ->]|[_ ->]]; lia).
  assert (0 <= 128 + 16 * ton + 1 < 256) as Ho by lia.
  pose proof (len_nonneg d) as Ld.
  split; [|split; [|split]].
  - intro L. exists (semi d). split; [apply semi_spec; auto|]. split.
    + unfold phone_length. rewrite byte_ok by lia. reflexivity.
    + intro tail. simpl app. rewrite (decode_phone_field d _ tail false) by auto. rewrite Ea. reflexivity.
  - intro L. unfold phone_length, byte. replace ((0 <=? len d) && (len d <? 256)) with false by lia. reflexivity.
  - intro L. exists (semi d). split; [apply semi_spec; auto|]. split.
    + unfold phone_length. rewrite byte_ok by lia. reflexivity.
    + intro tail. simpl app. rewrite (decode_phone_field d _ tail true) by auto. rewrite Ea. reflexivity.
  - intro L. unfold phone_length, byte. replace ((0 <=? len (semi d) + 1) && (len (semi d) + 1 <? 256)) with false by lia. reflexivity.
Qed.

Lemma alpha_final a n sm : alphanumeric a -> Forall encodable a -> text_weight a n ->
  (n <= 145 -> exists s v l, encodeGsm7 a false = Ok s /\ septet_stream 0 s v /\
     encodeAddressField a sm = Ok (l :: 0xD0 :: v) /\
     l = (7 * n + 3) / 4 + (if 4 <=? n mod 8 then 1 else 0) /\
     (~ In 27 a -> exists a', gsm7_received 0 a a' /\ forall tail, octets_ok tail ->
        decodeAddressField ((l :: 0xD0 :: v) ++ tail) sm = Ok ((Some a', len v + 2), tail))) /\
  (145 < n -> encodeAddressField a sm = Err ValueError).
Proof.
  intros Ha He Hw. rewrite encode_alpha by auto.
  destruct (encode_ok a He false) as (s & E & Hs & Hw'). rewrite E. cbn [bind].
  rewrite (text_weight_fun _ _ Hw _ Hw') in *. clear n Hw.
  destruct Ha as [Hne Hp]. pose proof (encode_nonempty _ _ E Hne) as Hse.
  destruct (packSeptets_spec s 0 Hs ltac:(lia) ltac:(auto)) as (v & P & Hv).
  change (fill_of_pad 0) with 0 in Hv. rewrite P. cbn [bind]. pose proof Hv as (_ & HL & _).
  assert (1 <= len s) by (destruct s; [congruence|]; rewrite len_cons; pose proof (len_nonneg s); lia).
  split; intro L.
  - exists s, v, (2 * len v). split; auto. split; [apply stream_val_spec; auto; lia|].
    rewrite byte_ok by lia. split; auto. split; [destruct (Z.leb_spec 4 (len s mod 8)); lia|].
    intro Hn. destruct (decode_lossy 0 a s E Hne Hn) as (t' & D & R). exists t'. split; auto.
    intros tail Htl. simpl app.
    destruct (decode_alpha_field a s v (2 * len v) 0xD0 tail sm) as (t'' & R' & ->); auto; try lia.
    rewrite (gsm7_received_fun _ _ _ _ R R'). reflexivity.
  - unfold byte. replace ((0 <=? 2 * len v) && (2 * len v <? 256)) with false by lia. reflexivity.
Qed.

(** Fields laid out by the network *)
(** Two characters of the standard that the library does not know. *)
Definition known_text (t : str) : Prop := ~ In 0xA7 t /\ ~ In 0x0C t.

Lemma decode_std_address a o tail : std_address a o -> octets_ok tail ->
  (type_of_number (nth 1 o 0) <> 5 -> decodeAddressField (o ++ tail) false = Ok ((Some a, len o), tail)) /\
  (type_of_number (nth 1 o 0) = 5 -> known_text a ->
    exists a', gsm7_received 0 a a' /\ decodeAddressField (o ++ tail) false = Ok ((Some a', len o), tail)).
Proof.
  intros H Htl. destruct H as [d toa v Hd Hne L Ht H1 H5 Hv|d toa v Hd Hne L Ht H1 Hv|t s v toa Hst Hne L Ht H5 Hv];
    cbn [nth app].
  - split; intro T; [|congruence]. rewrite (semi_unique d v Hd Hv).
    pose proof (decode_phone_field d toa tail false Hd Hne ltac:(unfold in_octet in Ht; lia) H5) as P.
    cbv iota delta [phone_length] beta in P. rewrite P.
    replace (type_of_number toa =? 1) with false by lia. rewrite !len_cons. do 3 f_equal. lia.
  - split; intro T; [|congruence]. rewrite (semi_unique d v Hd Hv).
    pose proof (decode_phone_field d toa tail false Hd Hne ltac:(unfold in_octet in Ht; lia) T) as P.
    cbv iota delta [phone_length] beta in P. rewrite P.
    rewrite H1. cbn [Z.eqb Pos.eqb]. rewrite !len_cons. do 3 f_equal. lia.
  - split; intro T; [congruence|]. intros [K1 K2].
    destruct (std_text_encode t s Hst K1 K2) as [E Hesc].
    assert (septets_ok s) as Hs by (eapply std_text_septets; eauto).
    apply stream_val_spec in Hv; auto; try lia.
    destruct (decode_alpha_field t s v ((7 * len s + 3) / 4) toa tail false) as (a' & R & D); auto.
    + unfold in_octet in Ht; lia.
    + destruct Hv as (_ & HL & _). lia.
    + exists a'. split; auto. rewrite D. do 3 f_equal. rewrite !len_cons. lia.
Qed.
