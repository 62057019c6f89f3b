(** decodeSmsPdu on arbitrary input (C22), information elements (C26) and the
    hexadecimal form (C27). *)
From Verif Require Import Base DateModel PduModel PduSpec SmsSpec DeliverSpec SeptetProofs FieldProofs SubmitProofs DecodeProofs.
From Coq Require Import ZifyBool.
Ltac Zify.zify_post_hook ::= Z.div_mod_to_equations.

(** ** Which exceptions can occur *)
Definition fine {A} (x : res A) : Prop := match x with Ok _ => True | Err e => decode_exn e end.

Lemma fine_bind {A B} (x : res A) (f : A -> res B) : fine x -> (forall a, fine (f a)) -> fine (bind x f).
Proof. destruct x; cbn [bind fine]; auto. Qed.
Lemma fine_Err {A} e : decode_exn e -> fine (@Err A e). Proof. auto. Qed.
Lemma fine_Ok {A} (a : A) : fine (Ok a). Proof. exact I. Qed.
Lemma fine_next {A} (it : list A) : fine (next it).
Proof. destruct it; cbn; unfold decode_exn; auto. Qed.
Ltac fin := repeat match goal with
  | |- fine (bind _ _) => apply fine_bind; [|intro]
  | |- fine (Ok _) => exact I
  | |- fine (Err _) => cbn; unfold decode_exn; tauto
  | |- fine (next _) => apply fine_next
  | |- fine (if ?b then _ else _) => destruct b
  | |- fine (let (_, _) := ?x in _) => destruct x
  | |- fine (match ?x with _ => _ end) => destruct x
  end.

Lemma fine_int base s : fine (py_int base s).
Proof. unfold py_int. cbv zeta. fin. Qed.
Lemma fine_gsm7 s : fine (decodeGsm7 s).
Proof.
  remember (length s) as n eqn:E. assert (H : (length s <= n)%nat) by lia. clear E. revert s H.
  induction n as [|n IH]; intros [|b s] H; cbn [decodeGsm7 length] in *; try exact I; try lia.
  destruct (b =? 27).
  - destruct s as [|c s]; [fin|]. cbn [length] in H. apply fine_bind; [apply IH; lia|intro; exact I].
  - destruct (nth_error _ _); [|fin]. apply fine_bind; [apply IH; lia|intro; exact I].
Qed.
Lemma fine_unpack_end shift p : fine (unpackSeptets_end shift p).
Proof. unfold unpackSeptets_end. cbv zeta. fin. Qed.
Lemma fine_unpack it : forall n i p shift, fine (unpackSeptets_loop it n i p shift).
Proof.
  induction it as [|o it IH]; intros; cbn [unpackSeptets_loop]; cbv zeta.
  - apply fine_bind; [apply fine_unpack_end|intro; exact I].
  - destruct (shift =? 7).
    + destruct (match n with Some m => i + 1 =? m | None => false end);
        (apply fine_bind; [first [apply fine_unpack_end|apply IH]|intro; fin]).
    + destruct p; [|fin].
      destruct (match n with Some m => i + 1 =? m | None => false end);
        (apply fine_bind; [first [apply fine_unpack_end|apply IH]|intro; fin]).
Qed.
Lemma fine_datetime_new a b c d e f g : fine (datetime_new a b c d e f g).
Proof. unfold datetime_new. fin. Qed.
Lemma fine_strptime s off : fine (strptime_ymdHMS s off).
Proof.
  unfold strptime_ymdHMS, strptime_fields.
  destruct (match_fields _ s) as [|[vs [|]] ?]; fin; apply fine_datetime_new.
Qed.
Lemma fine_offset s : fine (pduOffset s).
Proof. unfold pduOffset. apply fine_bind; [apply fine_int|intro]. cbv zeta. destruct (_ =? 0); (apply fine_bind; [apply fine_int|intro; exact I]). Qed.
Lemma fine_timestamp it : fine (decodeTimestamp it).
Proof.
  unfold decodeTimestamp. destruct (decodeSemiOctets it (Some 7)). cbv zeta.
  apply fine_bind; [apply fine_strptime|intro]. apply fine_bind; [apply fine_offset|intro; exact I].
Qed.
Lemma fine_vp o : fine (decodeRelativeValidityPeriod o).
Proof. unfold decodeRelativeValidityPeriod. fin. Qed.
Lemma fine_address it sm : fine (decodeAddressField it sm).
Proof.
  unfold decodeAddressField. apply fine_bind; [apply fine_next|intros [l it1]].
  destruct (0 <? l); [|exact I]. apply fine_bind; [apply fine_next|intros [toa it2]]. cbv zeta.
  destruct (_ =? 80).
  - apply fine_bind; [apply fine_unpack|intros [s it3]]. apply fine_bind; [apply fine_gsm7|intro; exact I].
  - destruct (if sm then _ else _) as [[v it3] l']. exact I.
Qed.
Lemma fine_read k : forall it, fine (read_n k it).
Proof. induction k as [|k IH]; intro it; cbn [read_n]; fin; apply IH. Qed.
Lemma fine_ie it : fine (ie_decode it).
Proof.
  unfold ie_decode. apply fine_bind; [apply fine_next|intros [iei it1]].
  apply fine_bind; [apply fine_next|intros [l it2]].
  apply fine_bind; [apply fine_read|intros [d it3]].
  apply fine_bind; [|intro; exact I]. unfold mk_InformationElement. cbv zeta. fin.
Qed.
Lemma read_n_inv k : forall it l r, read_n k it = Ok (l, r) -> it = l ++ r /\ length l = k.
Proof.
  induction k as [|k IH]; intros it l r; cbn [read_n].
  - intros [= <- <-]. auto.
  - destruct it as [|x it]; [discriminate|]. cbn [next bind]. destruct (read_n k it) as [[xs it']|] eqn:E; [|discriminate].
    cbn [bind]. intros [= <- <-]. apply IH in E as [-> <-]. auto.
Qed.
Lemma ie_decode_short it e r : ie_decode it = Ok (e, r) -> (length r + 2 <= length it)%nat.
Proof.
  unfold ie_decode. destruct it as [|a [|b it]]; try discriminate. cbn [next bind].
  destruct (read_n (Z.to_nat b) it) as [[l r']|] eqn:E; [|discriminate]. cbn [bind].
  destruct (mk_InformationElement a b l); [|discriminate]. cbn [bind]. intros [= <- <-].
  apply read_n_inv in E as [-> _]. cbn [length]. rewrite app_length. lia.
Qed.
Lemma fine_udh fuel : forall it i n, (length it < fuel)%nat -> fine (decode_udh fuel it i n).
Proof.
  induction fuel as [|fuel IH]; intros it i n H; [lia|]. cbn [decode_udh].
  destruct (i <? n); [|exact I]. destruct (ie_decode it) as [[e r]|x] eqn:E; cbn [bind].
  - apply ie_decode_short in E. apply fine_bind; [apply IH; lia|intros []; exact I].
  - pose proof (fine_ie it) as F. rewrite E in F. exact F.
Qed.
Lemma fine_ud it udl dc u : fine (decodeUserData it udl dc u).
Proof.
  unfold decodeUserData. apply fine_bind.
  { destruct u; [|exact I]. apply fine_bind; [apply fine_next|intros [n it1]].
    apply fine_bind; [apply fine_udh; lia|intros []; exact I]. }
  intros [[udh n] it1]. destruct (dc =? 0).
  - apply fine_bind; [destruct u; fin|intros [[p sh] it2]].
    apply fine_bind; [apply fine_unpack|intros [s r]].
    apply fine_bind; [apply fine_gsm7|intro; exact I].
  - destruct (dc =? 2); [destruct (decodeUcs2 it1 udl)|]; exact I.
Qed.

Lemma fine_decode data : fine (decodeSmsPdu_bytes data).
Proof.
  unfold decodeSmsPdu_bytes. cbv zeta.
  apply fine_bind; [apply fine_address|intros [[? ?] it1]].
  apply fine_bind; [apply fine_next|intros [first it2]]. apply fine_bind; [|intro; exact I].
  destruct (_ =? 0); [|destruct (_ =? 1); [|destruct (_ =? 2); [|fin]]].
  - apply fine_bind; [apply fine_address|intros [[? ?] it3]].
    apply fine_bind; [apply fine_next|intros [? it4]].
    apply fine_bind; [apply fine_next|intros [? it5]].
    apply fine_bind; [apply fine_timestamp|intros [? it6]].
    apply fine_bind; [apply fine_next|intros [? it7]].
    apply fine_bind; [apply fine_ud|intros []; exact I].
  - apply fine_bind; [apply fine_next|intros [? it4]].
    apply fine_bind; [apply fine_address|intros [[? ?] it3]].
    apply fine_bind; [apply fine_next|intros [? it5]].
    apply fine_bind; [apply fine_next|intros [? it6]].
    apply fine_bind.
    { destruct (_ =? 2); [|destruct (_ =? 3)]; [| |exact I].
      - apply fine_bind; [apply fine_next|intros []]. apply fine_bind; [apply fine_vp|intro; exact I].
      - apply fine_bind; [apply fine_timestamp|intros []; exact I]. }
    intros [? it7]. apply fine_bind; [apply fine_next|intros [? it8]].
    apply fine_bind; [apply fine_ud|intros []; exact I].
  - apply fine_bind; [apply fine_next|intros [? it4]].
    apply fine_bind; [apply fine_address|intros [[? ?] it3]].
    apply fine_bind; [apply fine_timestamp|intros [? it5]].
    apply fine_bind; [apply fine_timestamp|intros [? it6]].
    apply fine_bind; [apply fine_next|intros []; exact I].
Qed.

Lemma hexval_hex c : hexval c <> None <-> hex_digit c.
Proof.
  unfold hexval, hex_digit.
  destruct (Z.leb_spec 48 c), (Z.leb_spec c 57), (Z.leb_spec 65 c), (Z.leb_spec c 70), (Z.leb_spec 97 c), (Z.leb_spec c 102);
    cbn [andb]; (split; [intro; try congruence; try lia|intros; try discriminate; lia]).
Qed.
Lemma unhexlify_some s : unhexlify s <> None <-> hex_string s.
Proof.
  unfold hex_string. assert (G : (length s <= length s)%nat) by lia. revert G. generalize (length s) at 2. intros n H. revert s H.
  induction n as [|n IH]; intros [|a [|b s]] H; cbn [unhexlify length] in *; try lia.
  - split; [|intros; discriminate]. intros _. split; [exists 0%nat; reflexivity|constructor].
  - split; [|intros; discriminate]. intros _. split; [exists 0%nat; reflexivity|constructor].
  - split; [congruence|]. intros [[k K] _]. lia.
  - specialize (IH s ltac:(lia)).
    destruct (hexval a) as [x|] eqn:Ea; [|split; [congruence|]; intros [_ F]; inversion F as [|? ? Fa Fb]; subst; apply hexval_hex in Fa; congruence].
    destruct (hexval b) as [y|] eqn:Eb; [|split; [congruence|]; intros [_ F]; inversion F as [|? ? Fa Fb]; inversion Fb as [|? ? Fc Fd]; subst; apply hexval_hex in Fc; congruence].
    destruct (unhexlify s) as [r|].
    + split; [intros _|intros; discriminate]. destruct IH as [IH _]. destruct IH as [[k K] F]; [discriminate|].
      split; [exists (S k); lia|]. constructor; [apply hexval_hex; congruence|]. constructor; [apply hexval_hex; congruence|auto].
    + split; [congruence|]. intros [[k K] F]. inversion F as [|? ? Fa Fb]; inversion Fb as [|? ? Fc Fd]; subst.
      apply IH. split; auto. exists (k - 1)%nat. lia.
Qed.

Lemma decode_total s :
  (forall e, decodeSmsPdu s = Err e -> decode_exn e) /\
  (~ hex_string s -> decodeSmsPdu s = Err EncodingError).
Proof.
  unfold decodeSmsPdu. split.
  - intros e. destruct (unhexlify s) as [data|]; [|intros [= <-]; unfold decode_exn; auto].
    intro E. pose proof (fine_decode data) as F. rewrite E in F. exact F.
  - intro H. destruct (unhexlify s) eqn:E; auto. exfalso. apply H, unhexlify_some. congruence.
Qed.
Lemma decode_bytes_total data e : decodeSmsPdu_bytes data = Err e -> decode_exn e.
Proof. intro E. pose proof (fine_decode data) as F. rewrite E in F. exact F. Qed.

(** the message type *)
Lemma decode_type smsc smscf first rest : std_smsc smsc smscf -> 0 <= first < 256 ->
  match decodeSmsPdu_bytes (smscf ++ first :: rest) with
  | Ok m => sms_smsc m = smsc /\ sms_tpdu_length m = len (first :: rest) /\ body_type (sms_type m) = mti first
  | Err e => mti first = 3 -> e = EncodingError
  end /\ (mti first = 3 -> exists e, decodeSmsPdu_bytes (smscf ++ first :: rest) = Err e).
Proof.
  intros Hs Hf. unfold decodeSmsPdu_bytes. cbv zeta. rewrite (decode_std_smsc _ _ _ Hs). cbn [bind next].
  destruct (first_bits first Hf) as [-> ->].
  assert (HL : Z.of_nat (length (smscf ++ first :: rest)) - len smscf = len (first :: rest)).
  { unfold len. rewrite app_length. lia. }
  rewrite HL. assert (mti first = 0 \/ mti first = 1 \/ mti first = 2 \/ mti first = 3) as C by (unfold mti; lia).
  destruct C as [-> | [-> | [-> | ->]]]; cbn [Z.eqb Pos.eqb].
  - split; [|intros; lia].
    destruct (decodeAddressField rest false) as [[[? ?] it1]|]; cbn [bind]; [|lia].
    destruct (next it1) as [[? it2]|]; cbn [bind]; [|lia].
    destruct (next it2) as [[? it3]|]; cbn [bind]; [|lia].
    destruct (decodeTimestamp it3) as [[? it4]|]; cbn [bind]; [|lia].
    destruct (next it4) as [[? it5]|]; cbn [bind]; [|lia].
    destruct (decodeUserData _ _ _ _) as [[? ?]|]; cbn [bind]; [|lia]. auto.
  - split; [|intros; lia].
    destruct (next rest) as [[? it0]|]; cbn [bind]; [|lia].
    destruct (decodeAddressField it0 false) as [[[? ?] it1]|]; cbn [bind]; [|lia].
    destruct (next it1) as [[? it2]|]; cbn [bind]; [|lia].
    destruct (next it2) as [[? it3]|]; cbn [bind]; [|lia].
    match goal with |- context [if ?a =? 2 then ?x else ?y] => destruct (if a =? 2 then x else y) as [[? it4]|] end; cbn [bind]; [|lia].
    destruct (next it4) as [[? it5]|]; cbn [bind]; [|lia].
    destruct (decodeUserData _ _ _ _) as [[? ?]|]; cbn [bind]; [|lia]. auto.
  - split; [|intros; lia].
    destruct (next rest) as [[? it0]|]; cbn [bind]; [|lia].
    destruct (decodeAddressField it0 false) as [[[? ?] it1]|]; cbn [bind]; [|lia].
    destruct (decodeTimestamp it1) as [[? it2]|]; cbn [bind]; [|lia].
    destruct (decodeTimestamp it2) as [[? it3]|]; cbn [bind]; [|lia].
    destruct (next it3) as [[? it4]|]; cbn [bind]; [|lia]. auto.
  - cbn [bind]. split; eauto.
Qed.

(** ** Information elements *)
Lemma mk_bytes_octets l : octets_ok l -> mk_bytes l = Ok l.
Proof.
  induction 1 as [|x l Hx Hl IH]; [reflexivity|]. cbn [mk_bytes]. unfold byte.
  replace ((0 <=? x) && (x <? 256)) with true by lia. cbn [bind]. rewrite IH. reflexivity.
Qed.
Lemma hi_lo x : 0 <= x < 65536 -> Z.shiftr x 8 = x / 256 /\ Z.land x 255 = x mod 256.
Proof.
  intro H. rewrite Z.shiftr_div_pow2 by lia. split; [reflexivity|].
  change 255 with (Z.ones 8). rewrite Z.land_ones by lia. reflexivity.
Qed.
Lemma encode_element e rest o : element_ok e -> element_object e o ->
  ie_encode_raw (el_id e) (len (el_data e)) (el_data e) = Ok (element_octets e) /\
  exists o', ie_decode (element_octets e ++ rest) = Ok (o', rest) /\ element_object e o' /\ ie_len o' = len (element_octets e).
Proof.
  intros H _. split; [|apply ie_decode_element; auto].
  unfold ie_encode_raw. apply mk_bytes_octets. destruct H as (Hi & Hd & Hl & _). unfold in_octet in Hi.
  pose proof (len_nonneg (el_data e)). constructor; [lia|]. constructor; [lia|auto].
Qed.

(** the object constructed by Concatenation/PortAddress or InformationElement and
    its wire form *)
Lemma ie_roundtrip o rest : ie_well_formed o ->
  exists w, ie_encode o = Ok w /\ octets_ok w /\
    exists o', ie_decode (w ++ rest) = Ok (o', rest) /\ ie_same o o' /\ ie_len o' = len w.
Proof.
  unfold ie_well_formed. destruct o as [id n data sp]. cbn [ie_id ie_dataLength ie_data ie_special].
  assert (G : forall e, element_ok e -> exists w, ie_encode_raw (el_id e) (len (el_data e)) (el_data e) = Ok w /\ octets_ok w /\
    exists o', ie_decode (w ++ rest) = Ok (o', rest) /\ element_object e o' /\ ie_len o' = len w).
  { intros e He. exists (element_octets e). pose proof He as (Hi & Hd & Hl & _). unfold in_octet in Hi.
    pose proof (len_nonneg (el_data e)).
    assert (octets_ok (element_octets e)) as O by (constructor; [lia|]; constructor; [lia|auto]).
    split; [apply mk_bytes_octets, O|]. split; auto. apply ie_decode_element; auto. }
  unfold ie_encode. cbn [ie_id ie_dataLength ie_data ie_special]. unfold ie_same. cbn [ie_id ie_dataLength ie_data ie_special].
  destruct sp as [|r p k|d s].
  - intros (Hi & H0 & H4 & H5 & H8 & Hd & -> & Hl).
    destruct (G (mk_element id data)) as (w & E & O & o' & D & Ho & L).
    { unfold element_ok, in_octet. cbn [el_id el_data]. repeat split; auto; try lia; try congruence. }
    exists w. split; auto. split; auto. exists o'. split; auto. split; auto.
    destruct o' as [id' n' data' sp']. destruct Ho as (E1 & E2 & E3 & E4).
    cbn [el_id el_data ie_id ie_dataLength ie_data ie_special] in *.
    replace (id =? 0) with false in E4 by lia. replace (id =? 4) with false in E4 by lia. replace (id =? 5) with false in E4 by lia.
    replace (id =? 8) with false in E4 by lia. congruence.
  - intros (Hr & Hp & Hk). unfold concat_encode. destruct (Z.ltb_spec 255 r).
    + destruct (hi_lo r Hr) as [-> ->].
      destruct (G (mk_element 8 [r / 256; r mod 256; p; k])) as (w & E & O & o' & D & Ho & L).
      { unfold element_ok, in_octet, len in *. cbn [el_id el_data length]. repeat split; auto; try lia.
        repeat constructor; lia. }
      exists w. split; auto. split; auto. exists o'. split; auto. split; auto.
      destruct Ho as (_ & _ & _ & ->). cbn. unfold word. cbn [nth]. f_equal. lia.
    + destruct (G (mk_element 0 [r; p; k])) as (w & E & O & o' & D & Ho & L).
      { unfold element_ok, in_octet, len in *. cbn [el_id el_data length]. repeat split; auto; try lia.
        repeat constructor; lia. }
      exists w. split; auto. split; auto. exists o'. split; auto. split; auto.
      destruct Ho as (_ & _ & _ & ->). reflexivity.
  - intros (Hd & Hs). unfold port_encode. destruct ((255 <? d) || (255 <? s)) eqn:B.
    + destruct (hi_lo d Hd) as [-> ->]. destruct (hi_lo s Hs) as [-> ->].
      destruct (G (mk_element 5 [d / 256; d mod 256; s / 256; s mod 256])) as (w & E & O & o' & D & Ho & L).
      { unfold element_ok, in_octet, len in *. cbn [el_id el_data length]. repeat split; auto; try lia.
        repeat constructor; lia. }
      exists w. split; auto. split; auto. exists o'. split; auto. split; auto.
      destruct Ho as (_ & _ & _ & ->). cbn. unfold word. cbn [nth]. f_equal; lia.
    + destruct (G (mk_element 4 [d; s])) as (w & E & O & o' & D & Ho & L).
      { unfold element_ok, in_octet, len in *. cbn [el_id el_data length]. repeat split; auto; try lia.
        repeat constructor; lia. }
      exists w. split; auto. split; auto. exists o'. split; auto. split; auto.
      destruct Ho as (_ & _ & _ & ->). reflexivity.
Qed.

(** ** Hexadecimal form *)
Lemma hexval_shape x c : hex_of x c -> hexval c = Some x.
Proof.
  unfold hex_of, hexval. intros [(? & ->)|(? & [-> | ->])].
  - replace ((48 <=? 48 + x) && (48 + x <=? 57)) with true by lia. f_equal. lia.
  - replace ((48 <=? 55 + x) && (55 + x <=? 57)) with false by lia. replace ((65 <=? 55 + x) && (55 + x <=? 70)) with true by lia. f_equal. lia.
  - replace ((48 <=? 87 + x) && (87 + x <=? 57)) with false by lia. replace ((65 <=? 87 + x) && (87 + x <=? 70)) with false by lia.
    replace ((97 <=? 87 + x) && (87 + x <=? 102)) with true by lia. f_equal. lia.
Qed.
Lemma hex_text_unhex data s : hex_text data s -> unhexlify s = Some data.
Proof.
  induction 1 as [|b l a c s Hb Ha Hc Hs IH]; [reflexivity|]. cbn [unhexlify].
  rewrite (hexval_shape (b / 16) a), (hexval_shape (b mod 16) c), IH; auto. f_equal. f_equal. lia.
Qed.
Lemma hexdigit_upper_shape x : 0 <= x < 16 -> hex_of x (hexdigit_upper x) /\ (48 <= hexdigit_upper x <= 57 \/ 65 <= hexdigit_upper x <= 70).
Proof.
  intro H. unfold hex_of, hexdigit_upper. destruct (Z.ltb_spec x 10); split; lia.
Qed.
Lemma hex_final data : octets_ok data ->
  hex_text data (pdu_str data) /\ Forall (fun c => 48 <= c <= 57 \/ 65 <= c <= 70) (pdu_str data) /\
  len (pdu_str data) = 2 * len data /\
  forall s, hex_text data s -> decodeSmsPdu s = decodeSmsPdu_bytes data.
Proof.
  intro H. split; [|split; [|split]].
  - induction H as [|b l Hb Hl IH]; [constructor|]. unfold pdu_str. cbn [flat_map app]. constructor; auto; apply hexdigit_upper_shape; lia.
  - induction H as [|b l Hb Hl IH]; [constructor|]. unfold pdu_str. cbn [flat_map app]. constructor; [apply hexdigit_upper_shape; lia|]. constructor; [apply hexdigit_upper_shape; lia|auto].
  - clear H. induction data as [|b l IH]; [reflexivity|]. unfold pdu_str in *. cbn [flat_map app]. rewrite !len_cons, IH. lia.
  - intros s Hs. unfold decodeSmsPdu. rewrite (hex_text_unhex _ _ Hs). reflexivity.
Qed.
