(** Proofs: where an address field ends. *)
From Verif Require Import Base PduModel PduSpec SmsSpec DeliverSpec AddressProofs DecodeProofs BorderSpec.

(** ** The message behind the service centre *)
Definition tpdu (it : list Z) : res sms_body :=
  let* (first, it) := next it in
  let pduType := Z.land first 3 in
  let udhPresent := negb (Z.land first 64 =? 0) in
      if pduType =? 0 then
      let* ((number, _), it) := decodeAddressField it false in
      let* (pid, it) := next it in
      let* (dcs, it) := next it in
      let* (time, it) := decodeTimestamp it in
      let* (udl, it) := next it in
      let* (udh, text) := decodeUserData it udl (decodeDataCoding dcs) udhPresent in
      Ok (SmsDeliver number pid time udh text)
    else if pduType =? 1 then
      let* (reference, it) := next it in
      let* ((number, _), it) := decodeAddressField it false in
      let* (pid, it) := next it in
      let* (dcs, it) := next it in
      let vpf := Z.shiftr (Z.land first 24) 3 in
      let* (val, it) :=
        if vpf =? 2 then
          let* (o, it) := next it in
          let* t := decodeRelativeValidityPeriod o in Ok (DVRelative t, it)
        else if vpf =? 3 then
          let* (t, it) := decodeTimestamp it in Ok (DVAbsolute t, it)
        else Ok (DVNone, it) in
      let* (udl, it) := next it in
      let* (udh, text) := decodeUserData it udl (decodeDataCoding dcs) udhPresent in
      Ok (SmsSubmit reference number pid val udh text)
    else if pduType =? 2 then
      let* (reference, it) := next it in
      let* ((number, _), it) := decodeAddressField it false in
      let* (time, it) := decodeTimestamp it in
      let* (discharge, it) := decodeTimestamp it in
      let* (status, it) := next it in
      Ok (SmsStatusReport reference number time discharge status)
    else Err EncodingError.
Lemma decode_split data : decodeSmsPdu_bytes data =
  match decodeAddressField data true with
  | Err e => Err e
  | Ok ((s, r), it) => match tpdu it with Ok b => Ok (mk_sms s (Z.of_nat (length data) - r) b) | Err e => Err e end
  end.
Proof.
  unfold decodeSmsPdu_bytes. cbv zeta. destruct (decodeAddressField data true) as [[[s r] it]|e]; cbn [bind]; [|reflexivity].
  unfold tpdu. destruct (next it) as [[first it']|e]; cbn [bind]; [|reflexivity]. cbv zeta. destruct (Z.land first 3 =? 0); [|destruct (Z.land first 3 =? 1); [|destruct (Z.land first 3 =? 2)]]; reflexivity.
Qed.
Lemma no_centre it : decodeSmsPdu_bytes (0 :: it) = match tpdu it with Ok b => Ok (mk_sms None (len it) b) | Err e => Err e end.
Proof.
  rewrite decode_split. cbn [decodeAddressField next bind Z.ltb Z.compare]. destruct (tpdu it) as [b|e]; [|reflexivity]. unfold len. cbn [length]. do 2 f_equal. lia.
Qed.

(** ** Semi-octets *)
Lemma full_hi o : full o -> (o / 16 =? 15) = false.
Proof. unfold full. intro F. lia. Qed.
Lemma filled_hi o : filled o -> (o / 16 =? 15) = true.
Proof. unfold filled. intro F. assert (o / 16 = 15) by (symmetry; apply (Z.div_unique o 16 15 (o - 240)); lia). lia. Qed.
Fixpoint text_of (a : list Z) : str := match a with [] => [] | o :: a' => [hexdigit_lower (o mod 16); hexdigit_lower (o / 16)] ++ text_of a' end.
Lemma semi_cut a : forall f rest n i, Forall full a -> filled f -> (n <= i \/ i + Z.of_nat (length a) < n) ->
  decodeSemiOctets_loop (a ++ f :: rest) (Some n) i = (text_of a ++ [hexdigit_lower (f mod 16)], rest).
Proof.
  induction a as [|o a IH]; intros f rest n i F Ff N; cbn [List.app decodeSemiOctets_loop].
  - rewrite filled_hi by auto. reflexivity.
  - inversion F as [|? ? Fo Fa]; subst. rewrite full_hi by auto. cbn [length] in N. replace (i + 1 =? n) with false by lia. rewrite IH by (auto; lia). reflexivity.
Qed.
Lemma semi_whole a : forall rest n i, Forall full a -> n = i + Z.of_nat (length a) -> a <> [] -> decodeSemiOctets_loop (a ++ rest) (Some n) i = (text_of a, rest).
Proof.
  induction a as [|o a IH]; intros rest n i F N E; [congruence|]. cbn [List.app decodeSemiOctets_loop text_of]. inversion F as [|? ? Fo Fa]; subst. rewrite full_hi by auto.
  cbn [length]. destruct a as [|o' a].
  - cbn [length]. replace (i + 1 =? i + Z.of_nat 1) with true by lia. reflexivity.
  - replace (i + 1 =? i + Z.of_nat (S (length (o' :: a)))) with false by (cbn [length]; lia). rewrite (IH rest _ (i + 1)); [reflexivity|exact Fa|cbn [length]; lia|discriminate].
Qed.
Lemma semi_out a : forall n i, Forall full a -> snd (decodeSemiOctets_loop a (Some n) i) = [] \/ (i < n < i + Z.of_nat (length a)).
Proof.
  induction a as [|o a IH]; intros n i F; [left; reflexivity|]. cbn [decodeSemiOctets_loop]. inversion F as [|? ? Fo Fa]; subst. rewrite full_hi by auto. cbn [length].
  destruct (Z.eqb_spec (i + 1) n) as [<-|ne].
  - destruct a; [left; reflexivity|right; cbn [length]; lia].
  - specialize (IH n (i + 1) Fa). destruct (decodeSemiOctets_loop a (Some n) (i + 1)) as [s r]. cbn [snd] in *. destruct IH as [->|IH]; [left; reflexivity|right; lia].
Qed.
Lemma unpack_rest a : forall rest n i p sh x r, n = i + Z.of_nat (length a) -> a <> [] -> unpackSeptets_loop (a ++ rest) (Some n) i p sh = Ok (x, r) -> r = rest.
Proof.
  induction a as [|o a IH]; intros rest n i p sh x r N E H; [congruence|]. cbn [List.app unpackSeptets_loop] in H. cbn [length] in N.
  destruct a as [|o' a].
  - replace (i + 1 =? n) with true in H by (cbn [length] in N; lia).
    destruct (sh =? 7).
    + match type of H with context [unpackSeptets_end ?s ?q] => destruct (unpackSeptets_end s q); cbn [bind] in H; [|discriminate] end. injection H as _ <-. reflexivity.
    + destruct p; [|discriminate]. match type of H with context [unpackSeptets_end ?s ?q] => destruct (unpackSeptets_end s q); cbn [bind] in H; [|discriminate] end. injection H as _ <-. reflexivity.
  - replace (i + 1 =? n) with false in H by (cbn [length] in N; lia).
    destruct (sh =? 7).
    + match type of H with context [unpackSeptets_loop ?l ?m ?k ?q ?s] => destruct (unpackSeptets_loop l m k q s) as [[y r']|] eqn:U; cbn [bind] in H; [|discriminate] end. injection H as _ <-.
      refine (IH _ _ _ _ _ _ _ _ _ U); [cbn [length] in *; lia|discriminate].
    + destruct p; [|discriminate]. match type of H with context [unpackSeptets_loop ?l ?m ?k ?q ?s] => destruct (unpackSeptets_loop l m k q s) as [[y r']|] eqn:U; cbn [bind] in H; [|discriminate] end. injection H as _ <-.
      refine (IH _ _ _ _ _ _ _ _ _ U); [cbn [length] in *; lia|discriminate].
Qed.

(** ** The service centre *)
Lemma centre_field L toa it : 1 <= L -> in_octet toa -> type_of_number toa <> 5 -> exists v, decodeAddressField (L :: toa :: it) true =
  Ok ((Some v, L + 1), snd (decodeSemiOctets_loop it (Some (L - 1)) 0)) /\ v = (if type_of_number toa =? 1 then [43] else []) ++ fst (decodeSemiOctets_loop it (Some (L - 1)) 0).
Proof.
  intros HL Ht N. eexists. split; [|reflexivity]. unfold decodeAddressField. cbn [next bind]. replace (0 <? L) with true by lia. unfold in_octet in Ht. rewrite ton_land by lia.
  replace (16 * type_of_number toa =? 80) with false by lia. unfold decodeSemiOctets. destruct (decodeSemiOctets_loop it (Some (L - 1)) 0) as [v r]. cbn [fst snd].
  destruct (Z.eqb_spec (type_of_number toa) 1) as [->|ne]; [reflexivity|]. replace (16 * type_of_number toa =? 16) with false by lia. reflexivity.
Qed.
Lemma centre_cut L toa a f rest : 1 <= L -> in_octet toa -> type_of_number toa <> 5 -> Forall full a -> filled f -> (L = 1 \/ len a + 1 < L) ->
  decodeSmsPdu_bytes (L :: toa :: a ++ f :: rest) = shorter (L - (len a + 2)) (decodeSmsPdu_bytes (len a + 2 :: toa :: a ++ f :: rest)) /\
  same_message (decodeSmsPdu_bytes (L :: toa :: a ++ f :: rest)) (decodeSmsPdu_bytes (0 :: rest)).
Proof.
  intros HL Ht N Fa Ff C. unfold len in *. rewrite no_centre, !decode_split.
  destruct (centre_field L toa (a ++ f :: rest) HL Ht N) as (v & -> & Ev). destruct (centre_field (Z.of_nat (length a) + 2) toa (a ++ f :: rest) ltac:(lia) Ht N) as (v' & -> & Ev').
  rewrite semi_cut in Ev |- * by (auto; lia). rewrite semi_cut in Ev' |- * by (auto; lia). cbn [fst snd] in *. subst v v'.
  destruct (tpdu rest) as [b|e]; [|split; reflexivity]. split; [|reflexivity]. unfold shorter. cbn [sms_smsc sms_tpdu_length sms_type length]. do 2 f_equal. lia.
Qed.
Lemma centre_whole toa a rest : in_octet toa -> type_of_number toa <> 5 -> Forall full a -> a <> [] ->
  same_message (decodeSmsPdu_bytes (len a + 1 :: toa :: a ++ rest)) (decodeSmsPdu_bytes (0 :: rest)).
Proof.
  intros Ht N Fa E. unfold len in *. rewrite no_centre, decode_split. destruct (centre_field (Z.of_nat (length a) + 1) toa (a ++ rest) ltac:(lia) Ht N) as (v & -> & _).
  rewrite semi_whole by (auto; lia). cbn [snd]. destruct (tpdu rest); reflexivity.
Qed.
Lemma centre_out L toa it : 1 <= L -> in_octet toa -> type_of_number toa <> 5 -> Forall full it -> (L = 1 \/ len it <= L - 1) -> decodeSmsPdu_bytes (L :: toa :: it) = Err StopIteration.
Proof.
  intros HL Ht N F C. unfold len in C. rewrite decode_split. destruct (centre_field L toa it HL Ht N) as (v & -> & _). destruct (semi_out it (L - 1) 0 F) as [->|X]; [reflexivity|lia].
Qed.
Lemma padded L toa a f rest : 1 <= L -> in_octet toa -> type_of_number toa <> 5 -> Forall full a -> filled f -> len a + 1 < L ->
  decodeSmsPdu_bytes (L :: toa :: a ++ f :: 255 :: rest) = Err EncodingError.
Proof.
  intros HL Ht N Fa Ff C. destruct (centre_cut L toa a f (255 :: rest) HL Ht N Fa Ff (or_intror C)) as [_ S]. rewrite no_centre in S. change (tpdu (255 :: rest)) with (@Err sms_body EncodingError) in S.
  destruct (decodeSmsPdu_bytes (L :: toa :: a ++ f :: 255 :: rest)); [contradiction|]. cbn in S. congruence.
Qed.
Lemma centre_text L toa a rest m : 1 <= L -> in_octet toa -> type_of_number toa = 5 -> len a = (L + 1) / 2 -> decodeSmsPdu_bytes (L :: toa :: a ++ rest) = Ok m ->
  same_message (Ok m) (decodeSmsPdu_bytes (0 :: rest)).
Proof.
  intros HL Ht T La. unfold len in La. rewrite no_centre, decode_split. unfold decodeAddressField. cbn [next bind]. replace (0 <? L) with true by lia. unfold in_octet in Ht. rewrite ton_land by lia.
  rewrite T. change (16 * 5 =? 80) with true. cbv iota. rewrite <- La. unfold unpackSeptets.
  destruct (unpackSeptets_loop (a ++ rest) (Some (Z.of_nat (length a))) 0 None 7) as [[x r]|] eqn:U; cbn [bind]; [|discriminate].
  apply unpack_rest in U as ->; [|lia|intros ->; cbn in La; lia]. destruct (decodeGsm7 x); cbn [bind]; [|discriminate]. destruct (tpdu rest); [|discriminate]. intros [= <-]. reflexivity.
Qed.

(** ** The sender *)
Lemma number_cut D toa a f rest : in_octet toa -> type_of_number toa <> 5 -> Forall full a -> filled f -> 2 * len a < D ->
  exists v n, decodeAddressField (D :: toa :: a ++ f :: rest) false = Ok ((v, n), rest) /\ exists n', decodeAddressField (2 * len a + 1 :: toa :: a ++ f :: rest) false = Ok ((v, n'), rest).
Proof.
  intros Ht N Fa Ff C. unfold len in *. unfold decodeAddressField. cbn [next bind]. replace (0 <? D) with true by lia. replace (0 <? 2 * Z.of_nat (length a) + 1) with true by lia.
  unfold in_octet in Ht. rewrite ton_land by lia. replace (16 * type_of_number toa =? 80) with false by lia.
  set (n := if D mod 2 =? 0 then D / 2 else D / 2 + 1). set (n' := if (2 * Z.of_nat (length a) + 1) mod 2 =? 0 then _ else _). unfold decodeSemiOctets.
  assert (H1 : Z.of_nat (length a) < n) by (subst n; destruct (Z.eqb_spec (D mod 2) 0); lia).
  assert (H2 : Z.of_nat (length a) < n') by (subst n'; destruct (Z.eqb_spec ((2 * Z.of_nat (length a) + 1) mod 2) 0); lia).
  rewrite !semi_cut by (auto; lia). do 2 eexists. split; [reflexivity|]. eexists. reflexivity.
Qed.
Lemma sender_cut smsc smscf first mr D toa a f rest : std_smsc smsc smscf -> 0 <= first < 256 -> in_octet toa -> type_of_number toa <> 5 -> Forall full a -> filled f -> 2 * len a < D ->
  (mti first = 0 -> decodeSmsPdu_bytes (smscf ++ first :: D :: toa :: a ++ f :: rest) = decodeSmsPdu_bytes (smscf ++ first :: 2 * len a + 1 :: toa :: a ++ f :: rest)) /\
  (mti first = 1 \/ mti first = 2 -> decodeSmsPdu_bytes (smscf ++ first :: mr :: D :: toa :: a ++ f :: rest) = decodeSmsPdu_bytes (smscf ++ first :: mr :: 2 * len a + 1 :: toa :: a ++ f :: rest)).
Proof.
  intros Hs Hf Ht N Fa Ff C. destruct (number_cut D toa a f rest Ht N Fa Ff C) as (v & n & X & n' & Y).
  split; intro M; rewrite !decode_split, !(decode_std_smsc _ _ _ Hs); unfold tpdu; cbn [next bind]; destruct (first_bits first Hf) as [-> ->].
  - rewrite M. cbn [Z.eqb]. rewrite X, Y. cbn [bind]. rewrite !app_length. reflexivity.
  - destruct M as [-> | ->]; cbn [Z.eqb Pos.eqb next bind]; rewrite X, Y; cbn [bind]; rewrite !app_length; reflexivity.
Qed.
