(** Proofs about headers that name tables, or do not fit. *)
From Verif Require Import Base DateModel PduModel PduSpec SmsSpec DeliverSpec SubmitSpec CodingSpec HeaderSpec SeptetProofs Gsm7Proofs FieldProofs TimeProofs AddressProofs SubmitProofs SubmitFinal DecodeProofs CodingProofs TrailProofs.
From Coq Require Import ZifyBool.
Ltac Zify.zify_post_hook ::= Z.div_mod_to_equations.

(** ** What follows the header *)
Definition text_part (present : bool) (udhLen : Z) (it : list Z) (udl coding : Z) : res str :=
  if coding =? 0 then
    let* (prevOctet, shift, it) :=
      if present then let* (p, it) := next it in Ok (Some p, ((udhLen + 1) * 8) mod 7 + 1, it) else Ok (None, 7, it) in
    let* (septets, _) := unpackSeptets it (Some udl) prevOctet shift in
    decodeGsm7 septets
  else if coding =? 2 then let (text, _) := decodeUcs2 it udl in Ok text
  else Ok it.
Lemma user_data_parts it udl coding present :
  decodeUserData it udl coding present =
    let* (udh, n, it) := udh_part present it in let* text := text_part present n it udl coding in Ok (udh, text).
Proof.
  unfold decodeUserData, udh_part, text_part. destruct present; [|cbn [bind]; destruct (coding =? 0); [|destruct (coding =? 2)]; cbn [bind]; auto].
  - destruct (next it) as [[n r]|e]; cbn [bind]; auto. destruct (decode_udh _ _ _ _) as [[ies r']|e]; cbn [bind]; auto.
    destruct (coding =? 0); [|destruct (coding =? 2)]; cbn [bind]; auto.
    + destruct (next r') as [[p r'']|e]; cbn [bind]; auto. destruct (unpackSeptets _ _ _ _) as [[s x]|e]; cbn [bind]; auto.
    + destruct (decodeUcs2 r' udl); auto.
  - destruct (unpackSeptets _ _ _ _) as [[s x]|e]; cbn [bind]; auto.
  - destruct (decodeUcs2 it udl); auto.
Qed.
Lemma address_known oa oaf : std_address oa oaf -> type_of_number (nth 1 oaf 0) <> 5 -> reads_address oaf oa.
Proof. intros Ha Nt. destruct (std_reads oa oaf Ha ltac:(tauto)) as (oa' & Ra & Da). assert (oa' = oa) as -> by (destruct Ra; congruence). auto. Qed.


Lemma header_octets_ok es : header_ok es -> octets_ok (header_octets es).
Proof. intros [H L]. constructor; [pose proof (len_nonneg (List.concat (map element_octets es))); lia|apply (elements_octets es H)]. Qed.
Lemma header_part es rest : header_ok es -> exists os, udh_part true (header_octets es ++ rest) = Ok (Some os, len (header_octets es) - 1, rest) /\ Forall2 element_object es os.
Proof.
  intro H. destruct (udh_part_ok 64 (Some es) (header_octets es) rest) as ([os|] & E & F); [split; auto|exists os; auto|destruct F].
Qed.
(** a message with a header *)
Lemma deliver_header smsc smscf first oa oaf pid dcs t q udl ud :
  std_smsc smsc smscf -> 0 <= first < 256 -> mti first = 0 -> udhi first = true -> std_address oa oaf -> type_of_number (nth 1 oaf 0) <> 5 ->
  in_octet pid -> in_octet dcs -> sms_time t q -> in_octet udl -> octets_ok ud ->
  let data := deliver_octets smscf first oaf pid dcs (timestamp_of t q) udl ud in
  decodeSmsPdu_bytes data = (let* (udh, n, it) := udh_part true ud in let* text := text_part true n it udl (decodeDataCoding dcs) in
    Ok (mk_sms smsc (len data - len smscf) (SmsDeliver (Some oa) pid t udh text))).
Proof.
  intros Hs Hf Hm Hh Ha Nt Hp Hd Ht Hu Ho. cbv zeta. pose proof (address_known oa oaf Ha Nt) as R.
  destruct (deliver_general smsc smscf first oaf oa pid dcs t q udl ud Hs Hf Hm R Hp Hd Ht Hu Ho) as [-> _]. rewrite Hh, user_data_parts.
  destruct (udh_part true ud) as [[[udh n] it]|e]; cbn [bind]; auto. destruct (text_part _ _ _ _ _); cbn [bind]; auto.
Qed.

Theorem elements_ignored smsc smscf first oa oaf pid dcs t q udl es1 es2 rest :
  std_smsc smsc smscf -> 0 <= first < 256 -> mti first = 0 -> udhi first = true -> std_address oa oaf -> type_of_number (nth 1 oaf 0) <> 5 ->
  in_octet pid -> in_octet dcs -> sms_time t q -> in_octet udl -> header_ok es1 -> header_ok es2 -> len (header_octets es1) = len (header_octets es2) -> octets_ok rest ->
  drop_header (decodeSmsPdu_bytes (deliver_octets smscf first oaf pid dcs (timestamp_of t q) udl (header_octets es1 ++ rest))) =
  drop_header (decodeSmsPdu_bytes (deliver_octets smscf first oaf pid dcs (timestamp_of t q) udl (header_octets es2 ++ rest))).
Proof.
  intros Hs Hf Hm Hh Ha Nt Hp Hd Ht Hu H1 H2 L Ho.
  rewrite !(deliver_header smsc smscf first oa oaf pid dcs t q udl); auto; try (apply Forall_app; split; auto; apply header_octets_ok; auto).
  destruct (header_part es1 rest H1) as (os1 & -> & _). destruct (header_part es2 rest H2) as (os2 & -> & _). cbn [bind].
  rewrite <- L. destruct (text_part _ _ _ _ _); [|reflexivity]. cbn [bind drop_header].
  replace (len (deliver_octets smscf first oaf pid dcs (timestamp_of t q) udl (header_octets es2 ++ rest))) with (len (deliver_octets smscf first oaf pid dcs (timestamp_of t q) udl (header_octets es1 ++ rest)));
    [reflexivity|]. unfold deliver_octets. rewrite !len_app, L. reflexivity.
Qed.

(** ** Characters *)
Lemma char_default c : In c (GSM7_BASIC ++ ext_chars) -> c <> 27 -> c <> 255 -> default_char c.
Proof.
  intros H N N'.
  assert (F : forallb (fun c => (existsb (fun o => match o with Some d => d =? c | None => false end) ts23038_basic && negb (c =? 0xA7))
     || (existsb (fun p => snd p =? c) ts23038_ext && negb (c =? 0x0C)) || (c =? 0x60) || ((c =? 27) || (c =? 255))) (GSM7_BASIC ++ ext_chars) = true) by (vm_compute; reflexivity).
  rewrite forallb_forall in F. specialize (F c H). unfold default_char.
  replace ((c =? 27) || (c =? 255)) with false in F by lia. rewrite orb_false_r in F. rewrite !orb_true_iff, !andb_true_iff, !existsb_exists in F.
  destruct F as [[[(o & I & E) K]|[(p & I & E) K]]|K].
  - left. destruct o as [d|]; [|discriminate]. assert (d = c) as -> by lia. split; [auto|lia].
  - right. left. destruct p as [p d]. cbn in E. assert (d = c) as -> by lia. split; [exists p; auto|lia].
  - right. right. lia.
Qed.
Lemma lookup_chr c l x : In x (ext_lookup c l) -> In (x, VChr c) l.
Proof.
  induction l as [|[k [v|v]] l IH]; cbn; auto. destruct (Z.eqb_spec c v) as [->|]; [intros [->|[]]; auto|auto].
Qed.
Lemma decode_no_escape n : forall s t, (length s <= n)%nat -> decodeGsm7 s = Ok t -> forall x, x = 27 \/ x = 255 -> ~ In x t.
Proof.
  induction n as [|n IH]; intros [|b s] t L D x Hx; try (injection D as <-; intros []); cbn [length] in L; try lia. cbn [decodeGsm7] in D. destruct (Z.eqb_spec b 27) as [E|E].
  - destruct s as [|c s]; [discriminate|]. destruct (decodeGsm7 s) as [r|] eqn:Er; [|discriminate]. injection D as <-. rewrite in_app_iff. intros [I|I]; [|revert I; apply (IH s); [cbn in L; lia|auto|auto]].
    apply (lookup_chr c GSM7_EXTENDED) in I. cbn in I. intuition congruence.
  - destruct (nth_error GSM7_BASIC (Z.to_nat b)) as [ch|] eqn:N; [|discriminate]. destruct (decodeGsm7 s) as [r|] eqn:Er; [|discriminate]. injection D as <-.
    intros [->|I]; [|revert I; apply (IH s); [lia|auto|auto]].
    assert (Z.to_nat b = 27%nat) as K; [|lia].
    assert (F : forallb (fun i => match nth_error GSM7_BASIC i with Some c => negb ((c =? 27) || (c =? 255)) || (Nat.eqb i 27) | None => true end) (seq 0 128) = true) by (vm_compute; reflexivity).
    rewrite forallb_forall in F. assert (Hi : (Z.to_nat b < 128)%nat) by (change 128%nat with (length GSM7_BASIC); apply nth_error_Some; congruence).
    specialize (F (Z.to_nat b) ltac:(apply in_seq; lia)). rewrite N in F. replace ((x =? 27) || (x =? 255)) with true in F by lia. cbn [negb orb] in F. apply Nat.eqb_eq in F. auto.
Qed.
Lemma decoded_default s t : decodeGsm7 s = Ok t -> Forall default_char t.
Proof.
  intro D. pose proof (decode_chars s t D) as F. pose proof (decode_no_escape _ s t (le_n _) D) as N. rewrite Forall_forall in *. intros c I. apply char_default; auto; intros ->; [exact (N 27 (or_introl eq_refl) I)|exact (N 255 (or_intror eq_refl) I)].
Qed.

Theorem default_only smsc smscf first oa oaf pid dcs t q udl ud m text :
  std_smsc smsc smscf -> 0 <= first < 256 -> mti first = 0 -> std_address oa oaf -> type_of_number (nth 1 oaf 0) <> 5 ->
  in_octet pid -> in_octet dcs -> ts23038_alphabet dcs = 0 -> sms_time t q -> in_octet udl -> octets_ok ud ->
  decodeSmsPdu_bytes (deliver_octets smscf first oaf pid dcs (timestamp_of t q) udl ud) = Ok m -> text_of_sms m = Some text ->
  Forall default_char text.
Proof.
  intros Hs Hf Hm Ha Nt Hp Hd Al Ht Hu Ho D Tx. pose proof (address_known oa oaf Ha Nt) as R.
  destruct (deliver_general smsc smscf first oaf oa pid dcs t q udl ud Hs Hf Hm R Hp Hd Ht Hu Ho) as [E _]. rewrite E, user_data_parts, (coding_right dcs 0) in D by auto.
  destruct (udh_part (udhi first) ud) as [[[udh n] it]|e]; cbn [bind] in D; [|discriminate].
  unfold text_part in D. change (0 =? 0) with true in D. cbv iota in D.
  destruct (if udhi first then _ else _) as [[[p sh] it']|e]; cbn [bind] in D; [|discriminate].
  destruct (unpackSeptets it' (Some udl) p sh) as [[s x]|e]; cbn [bind] in D; [|discriminate].
  destruct (decodeGsm7 s) as [r|e] eqn:Es; cbn [bind] in D; [|discriminate]. injection D as <-. cbn in Tx. injection Tx as <-. eapply decoded_default; eauto.
Qed.

(** ** Septets after a header *)
Lemma lossy_at fill s : s <> [] -> but_final_at fill s (lossy fill s).
Proof.
  intro N. unfold lossy, but_final_at. destruct (Z.eqb_spec ((fill + 7 * len s) mod 8) 0) as [E|E]; cbn [andb]; auto. destruct (Z.eqb_spec (last s 1) 0) as [E0|E0]; auto.
  right. split; [lia|]. rewrite <- E0. apply app_removelast_last. auto.
Qed.
Lemma at_septets fill s s' : septets_ok s -> but_final_at fill s s' -> septets_ok s'.
Proof. intros O [->|[_ ->]]; auto. apply Forall_app in O as [O _]. auto. Qed.
Theorem header_septets smsc smscf first oa oaf pid dcs t q es s v udl :
  std_smsc smsc smscf -> 0 <= first < 256 -> mti first = 0 -> udhi first = true -> std_address oa oaf -> type_of_number (nth 1 oaf 0) <> 5 ->
  in_octet pid -> in_octet dcs -> ts23038_alphabet dcs = 0 -> sms_time t q -> header_ok es -> septets_ok s -> s <> [] ->
  let h := len (header_octets es) in
  septet_stream (fill_bits h) s v -> udl = (8 * h + fill_bits h) / 7 + len s -> udl <= 255 ->
  exists s' os, septets_after h s s' /\ Forall2 element_object es os /\
    let data := deliver_octets smscf first oaf pid dcs (timestamp_of t q) udl (header_octets es ++ v) in
    ((exists text, lib_reading s' text /\ decodeSmsPdu_bytes data = Ok (mk_sms smsc (len data - len smscf) (SmsDeliver (Some oa) pid t (Some os) text))) \/
     (cut_escape s' /\ decodeSmsPdu_bytes data = Err StopIteration)).
Proof.
  intros Hs Hf Hm Hh Ha Nt Hp Hd Al Ht He Os Ns h Sv Eu L. pose proof Sv as [Ov _].
  assert (Hlh : 1 <= h) by (unfold h, header_octets; rewrite len_cons; pose proof (len_nonneg (List.concat (map element_octets es))); lia).
  pose proof (fill_range h) as Hfr. pose proof (len_nonneg s) as Ls.
  apply stream_val_spec in Sv; auto; try lia. destruct v as [|p o].
  { destruct Sv as (_ & HL & _). rewrite (@len_nil Z) in HL. destruct s; [congruence|]. rewrite len_cons in HL. pose proof (len_nonneg s). lia. }
  assert (Hn : len o < udl) by (destruct Sv as (_ & HL & _); rewrite len_cons in HL; lia).
  destruct (header_part es (p :: o) He) as (os & Eh & Hos). fold h in Eh.
  assert (U : exists s', septets_after h s s' /\ unpackSeptets o (Some udl) (Some p) (((h - 1 + 1) * 8) mod 7 + 1) = Ok (s', [])).
  { replace ((h - 1 + 1) * 8) with (8 * h) by lia. unfold septets_after.
    assert (Hshift : (8 * h) mod 7 + 1 = if fill_bits h =? 0 then 1 else 8 - fill_bits h) by (unfold fill_bits; destruct (Z.eqb_spec (- (8 * h) mod 7) 0); lia).
    rewrite Hshift. destruct (Z.eqb_spec (fill_bits h) 0) as [F0|F0].
    - rewrite F0 in Sv. destruct s as [|s0 s]; [congruence|]. exists (lossy 7 s). split; [|apply (unpack_stream_hdr0 s0 s p o udl Os Sv Hn)].
      cbn [tl]. destruct s as [|s1 s]; [left; reflexivity|apply lossy_at; discriminate].
    - exists (lossy (fill_bits h) s). split; [apply lossy_at; auto|]. apply (unpack_stream_fill s p o (fill_bits h) udl Os); auto. lia. }
  destruct U as (s' & As & U). exists s', os. split; auto. split; auto. cbv zeta.
  rewrite (deliver_header smsc smscf first oa oaf pid dcs t q udl); auto; [|unfold in_octet; lia|apply Forall_app; split; [apply header_octets_ok; auto|auto]].
  rewrite Eh. cbn [bind]. rewrite (coding_right dcs 0) by auto. unfold text_part. change (0 =? 0) with true. cbn [next bind]. rewrite U. cbn [bind].
  assert (O' : septets_ok s').
  { unfold septets_after in As. destruct (_ =? 0); [|eapply at_septets; eauto]. eapply at_septets; [|eauto]. destruct s as [|x s]; [congruence|]. inversion Os; auto. }
  destruct (septets_read _ O') as [(text & R & E)|[C E]]; rewrite E; cbn [bind]; [left; exists text; auto|right; auto].
Qed.

Lemma lookup_short c l : (length (ext_lookup c l) <= 1)%nat.
Proof. induction l as [|[k [v|v]] l IH]; cbn; auto. destruct (c =? v); cbn; auto. Qed.
Lemma not_longer basic ext s t : reading_with basic ext s t -> forall t', decodeGsm7 s = Ok t' -> (length t' <= length t)%nat.
Proof.
  induction 1 as [|i c s t Hi Hc H IH|p c s t Hp H IH]; intros t' D.
  - injection D as <-. auto.
  - cbn [decodeGsm7] in D. replace (Z.of_nat i =? 27) with false in D by lia. destruct (nth_error GSM7_BASIC _) as [ch|]; [|discriminate].
    destruct (decodeGsm7 s) as [r|]; [|discriminate]. injection D as <-. specialize (IH r eq_refl). cbn [length]. lia.
  - rewrite decode_escape in D. destruct (decodeGsm7 s) as [r|]; [|discriminate]. cbn [bind] in D. assert (E : ext_lookup p GSM7_EXTENDED ++ r = t') by congruence. subst t'. specialize (IH r eq_refl).
    rewrite app_length. pose proof (lookup_short p GSM7_EXTENDED). cbn [length]. lia.
Qed.
Lemma default_lib s t : default_reading s t -> lib_reading s t.
Proof. induction 1; econstructor; eauto. Qed.
Theorem tables_agree basic ext s t : reading_with basic ext s t -> (decodeGsm7 s = Ok t <-> default_reading s t).
Proof.
  intro H. split; [|intro R; apply lib_reads, default_lib, R].
  induction H as [|i c s t Hi Hc H IH|p c s t Hp H IH]; intro D.
  - constructor.
  - cbn [decodeGsm7] in D. replace (Z.of_nat i =? 27) with false in D by lia. destruct (nth_error GSM7_BASIC _) as [ch|] eqn:N; [|discriminate].
    destruct (decodeGsm7 s) as [r|] eqn:E; [|discriminate]. injection D as -> ->. specialize (IH eq_refl).
    assert (Hb : 0 <= Z.of_nat i < 128) by (rewrite Nat2Z.id in N; assert (i < length GSM7_BASIC)%nat by (apply nth_error_Some; congruence); cbn in H0; lia).
    destruct (basic_decides (Z.of_nat i) Hb ltac:(lia)) as [E5|(j & c' & Ej & Nj & Nc)].
    + rewrite E5 in *. cbn in N. injection N as <-. apply dr_section. auto.
    + assert (j = i) as -> by lia. assert (c' = c) as ->.
      { pose proof (decode_basic i c' [] Nj) as D2. cbn [decodeGsm7] in D2. replace (Z.of_nat i =? 27) with false in D2 by lia. rewrite N in D2. cbn [bind] in D2.
        destruct (Z.eqb_spec (Z.of_nat i) 0x5F) as [E5|E5]; [|congruence]. exfalso. assert (i = 95%nat) as -> by lia. cbn in Nj. congruence. }
      apply dr_basic; auto.
  - rewrite decode_escape in D. destruct (decodeGsm7 s) as [r|] eqn:E; [|discriminate]. cbn [bind] in D. assert (Q : ext_lookup p GSM7_EXTENDED ++ r = c :: t) by congruence. clear D.
    pose proof (not_longer _ _ _ _ H r E) as L. pose proof (lookup_short p GSM7_EXTENDED) as Sh.
    destruct (ext_lookup p GSM7_EXTENDED) as [|x [|y l]] eqn:K; [| |cbn [length] in Sh; lia].
    + change (r = c :: t) in Q. rewrite Q in L. cbn [length] in L. lia.
    + change (x :: r = c :: t) in Q. assert (x = c) by congruence. assert (r = t) by congruence. subst x r. specialize (IH eq_refl).
      destruct (ext_decides p) as [(c' & I & Nc)|Z].
      * pose proof (ext_table p c' I) as [T _]. rewrite K in T. replace (c' =? 0x0C) with false in T by lia. assert (c' = c) as -> by congruence. apply dr_ext; auto.
      * exfalso. assert (I : In c (ext_lookup p GSM7_EXTENDED)) by (rewrite K; cbn; auto).
        assert (P : 0 <= p < 128). { apply (lookup_chr p GSM7_EXTENDED) in I. clear - I. cbn in I. repeat (destruct I as [I|I]; [injection I; intros; lia || discriminate|]). destruct I. }
        rewrite (no_ext p P Z) in I. destruct I.
Qed.

(** ** Headers that do not fit *)
Lemma udh_steps es : Forall element_ok es -> forall fuel r u rest, (length es <= fuel)%nat -> r + len (body_octets es) < u ->
  exists os, Forall2 element_object es os /\
    decode_udh fuel (body_octets es ++ rest) r u = let* (l, it) := decode_udh (fuel - length es) rest (r + len (body_octets es)) u in Ok (os ++ l, it).
Proof.
  unfold body_octets. induction 1 as [|e es He Hes IH]; intros fuel r u rest Hf Hu.
  - exists []. split; [constructor|]. cbn [map List.concat length app]. rewrite len_nil, Z.add_0_r, Nat.sub_0_r. destruct (decode_udh fuel rest r u) as [[l it]|x]; reflexivity.
  - cbn [map List.concat] in *. rewrite len_app in Hu. pose proof (len_nonneg (List.concat (map element_octets es))) as L0.
    pose proof (len_nonneg (element_octets e)) as L1. destruct fuel as [|fuel]; [cbn [length] in Hf; lia|]. cbn [decode_udh].
    replace (r <? u) with true by lia. rewrite <- app_assoc.
    destruct (ie_decode_element e (List.concat (map element_octets es) ++ rest) He) as (o & -> & Ho & Hlen). cbn [bind].
    destruct (IH fuel (r + ie_len o) u rest) as (os & Hos & ->); [cbn [length] in Hf; lia|lia|].
    exists (o :: os). split; [constructor; auto|]. cbn [length]. rewrite Nat.sub_succ, len_app, Hlen, Z.add_assoc.
    destruct (decode_udh _ _ _ _) as [[l it]|x]; reflexivity.
Qed.
Lemma element_octets_long e : 2 <= len (element_octets e).
Proof. unfold element_octets. rewrite !len_cons. pose proof (len_nonneg (el_data e)). lia. Qed.
Lemma body_count es : (length es <= length (body_octets es))%nat.
Proof. apply elements_count. Qed.

Lemma overrun_part u es e rest : Forall element_ok es -> element_ok e -> len (body_octets es) < u <= len (body_octets es) + len (element_octets e) ->
  exists os, Forall2 element_object (es ++ [e]) os /\ udh_part true (u :: body_octets es ++ element_octets e ++ rest) = Ok (Some os, u, rest).
Proof.
  intros Hes He Hu. unfold udh_part. cbn [next bind].
  set (it := body_octets es ++ element_octets e ++ rest).
  assert (Hl : (length es + 2 <= S (length it))%nat).
  { unfold it. rewrite !app_length. pose proof (body_count es). unfold element_octets. cbn [length]. lia. }
  destruct (udh_steps es Hes (S (length it)) 0 u (element_octets e ++ rest)) as (os & Hos & E); [lia|lia|]. fold it in E. rewrite E. clear E.
  destruct (S (length it) - length es)%nat as [|[|f]] eqn:K; [lia|lia|]. cbn [decode_udh]. replace (0 + len (body_octets es) <? u) with true by lia.
  destruct (ie_decode_element e rest He) as (o & -> & Ho & Hlen). cbn [bind]. rewrite Hlen. replace (0 + len (body_octets es) + len (element_octets e) <? u) with false by lia. cbn [bind].
  exists (os ++ [o]). split; [apply Forall2_app; auto|reflexivity].
Qed.
Lemma cut_part u es e frag more : Forall element_ok es -> element_octets e = frag ++ more -> more <> [] -> len (body_octets es) < u ->
  udh_part true (u :: body_octets es ++ frag) = Err StopIteration.
Proof.
  intros Hes Ee Nm Hu. unfold udh_part. cbn [next bind]. set (it := body_octets es ++ frag).
  assert (Hl : (length es + 1 <= S (length it))%nat) by (unfold it; rewrite !app_length; pose proof (body_count es); lia).
  destruct (udh_steps es Hes (S (length it)) 0 u frag) as (os & Hos & E); [lia|lia|]. fold it in E. rewrite E. clear E.
  destruct (S (length it) - length es)%nat as [|f] eqn:K; [lia|]. cbn [decode_udh]. replace (0 + len (body_octets es) <? u) with true by lia.
  assert (X : ie_decode frag = Err StopIteration); [|rewrite X; reflexivity].
  unfold element_octets in Ee. destruct frag as [|a [|b d]]; [reflexivity|reflexivity|]. cbn [app] in Ee. injection Ee as E1 E2 Ed. subst a b.
  unfold ie_decode. cbn [next bind]. rewrite Ed. replace (Z.to_nat (len (d ++ more))) with (length d + length more)%nat by (unfold len; rewrite app_length; lia).
  clear - Nm. assert (X : read_n (length d + length more) d = Err StopIteration); [|rewrite X; reflexivity].
  induction d as [|x d IH]; cbn [length Nat.add read_n next bind].
  - destruct more; [congruence|reflexivity].
  - rewrite IH. reflexivity.
Qed.
Lemma exception_decode e rest x : element_exception e = Some x -> ie_decode (element_octets e ++ rest) = Err x.
Proof.
  destruct e as [id data]. unfold element_exception, ie_decode, element_octets. cbn [el_id el_data app next bind].
  replace (Z.to_nat (len data)) with (length data) by (unfold len; lia). rewrite read_n_app. cbn [bind]. unfold mk_InformationElement. cbv zeta.
  destruct (Z.eqb_spec id 0) as [->|N0]; cbn [andb negb orb].
  { destruct (Z.eqb_spec (len data) 3) as [E3|E3]; cbn [negb]; [intro D; cbn in D; discriminate|]. intro D.
    destruct data as [|a [|b [|c [|d data]]]]; try (unfold len in E3; cbn [length] in E3; lia); cbn [bind]; congruence. }
  destruct (Z.eqb_spec id 4) as [->|N4]; cbn [andb negb orb].
  { cbn [Z.eqb Pos.eqb]. destruct (Z.eqb_spec (len data) 2) as [E3|E3]; cbn [negb]; [intro D; cbn in D; discriminate|]. intro D.
    destruct data as [|a [|b [|c data]]]; try (unfold len in E3; cbn [length] in E3; lia); cbn [bind]; congruence. }
  destruct (Z.eqb_spec id 8) as [->|N8]; cbn [andb negb orb].
  { destruct (Z.ltb_spec (len data) 4) as [E3|E3]; [|discriminate]. intro D.
    destruct data as [|a [|b [|c [|d data]]]]; cbn [bind]; try congruence. unfold len in E3; cbn [length] in E3; lia. }
  destruct (Z.eqb_spec id 5) as [->|N5]; cbn [andb negb orb]; [|discriminate].
  destruct (Z.ltb_spec (len data) 4) as [E3|E3]; [|discriminate]. intro D.
  destruct data as [|a [|b [|c [|d data]]]]; cbn [bind]; try congruence. unfold len in E3; cbn [length] in E3; lia.
Qed.
Lemma exception_part u es e rest x : Forall element_ok es -> element_exception e = Some x -> len (body_octets es) < u ->
  udh_part true (u :: body_octets es ++ element_octets e ++ rest) = Err x.
Proof.
  intros Hes He Hu. unfold udh_part. cbn [next bind]. set (it := body_octets es ++ element_octets e ++ rest).
  assert (Hl : (length es + 1 <= S (length it))%nat) by (unfold it; rewrite !app_length; pose proof (body_count es); lia).
  destruct (udh_steps es Hes (S (length it)) 0 u (element_octets e ++ rest)) as (os & Hos & E); [lia|lia|]. fold it in E. rewrite E. clear E.
  destruct (S (length it) - length es)%nat as [|f] eqn:K; [lia|]. cbn [decode_udh]. replace (0 + len (body_octets es) <? u) with true by lia.
  rewrite (exception_decode e rest x He). reflexivity.
Qed.

Lemma fits_octets u es e rest : Forall element_ok es -> element_ok e -> in_octet u -> octets_ok rest -> octets_ok (u :: body_octets es ++ element_octets e ++ rest).
Proof.
  intros Hes He Hu Hr. constructor; [unfold in_octet in Hu; lia|]. apply Forall_app. split; [exact (elements_octets es Hes)|]. apply Forall_app. split; [|auto].
  pose proof (elements_octets [e] ltac:(constructor; auto)) as X. cbn [map List.concat] in X. rewrite app_nil_r in X. exact X.
Qed.
(** what stands behind the length the header gives *)
Lemma overrun_lost u es e rest : len (body_octets es) < u < len (body_octets es) + len (element_octets e) ->
  exists lost, lost <> [] /\ skipn (Z.to_nat (1 + u)) (u :: body_octets es ++ element_octets e ++ rest) = lost ++ rest.
Proof.
  intro H. pose proof (len_nonneg (body_octets es)) as L0. replace (Z.to_nat (1 + u)) with (S (Z.to_nat u)) by lia. cbn [skipn]. unfold len in H.
  exists (skipn (Z.to_nat u - length (body_octets es)) (element_octets e)). split.
  - intro E. apply (f_equal (@length Z)) in E. rewrite skipn_length in E. cbn [length] in E. lia.
  - rewrite skipn_app, skipn_all2 by lia. cbn [app]. rewrite skipn_app. f_equal.
    replace (Z.to_nat u - length (body_octets es) - length (element_octets e))%nat with 0%nat by lia. reflexivity.
Qed.
Theorem overrun_octets smsc smscf first oa oaf pid dcs t q udl u es e rest :
  std_smsc smsc smscf -> 0 <= first < 256 -> mti first = 0 -> udhi first = true -> std_address oa oaf -> type_of_number (nth 1 oaf 0) <> 5 ->
  in_octet pid -> 0 <= dcs < 64 -> ts23038_alphabet dcs = 1 -> sms_time t q -> in_octet udl ->
  Forall element_ok es -> element_ok e -> in_octet u -> len (body_octets es) < u < len (body_octets es) + len (element_octets e) -> octets_ok rest ->
  let ud := u :: body_octets es ++ element_octets e ++ rest in
  exists os lost, Forall2 element_object (es ++ [e]) os /\ lost <> [] /\ skipn (Z.to_nat (1 + u)) ud = lost ++ rest /\
    let data := deliver_octets smscf first oaf pid dcs (timestamp_of t q) udl ud in
    decodeSmsPdu_bytes data = Ok (mk_sms smsc (len data - len smscf) (SmsDeliver (Some oa) pid t (Some os) rest)).
Proof.
  intros Hs Hf Hm Hh Ha Nt Hp Hd Al Ht Hu Hes He Iu R Ho ud.
  destruct (overrun_part u es e rest Hes He ltac:(lia)) as (os & Hos & E). destruct (overrun_lost u es e rest R) as (lost & Nl & El). exists os, lost. repeat (split; auto). cbv zeta.
  rewrite (deliver_header smsc smscf first oa oaf pid dcs t q udl); auto; [|unfold in_octet; lia|apply fits_octets; auto].
  unfold ud at 1. rewrite E. cbn [bind]. rewrite (coding_right dcs 1); [reflexivity|unfold in_octet; lia|auto|lia].
Qed.
Theorem overrun_ucs2 smsc smscf first oa oaf pid dcs t q udl u es e text :
  std_smsc smsc smscf -> 0 <= first < 256 -> mti first = 0 -> udhi first = true -> std_address oa oaf -> type_of_number (nth 1 oaf 0) <> 5 ->
  in_octet pid -> 0 <= dcs < 64 -> ts23038_alphabet dcs = 2 -> sms_time t q -> in_octet udl ->
  Forall element_ok es -> element_ok e -> in_octet u -> len (body_octets es) < u < len (body_octets es) + len (element_octets e) -> bmp text -> 2 * len text <= udl ->
  let ud := u :: body_octets es ++ element_octets e ++ ucs2_be text in
  exists os lost, Forall2 element_object (es ++ [e]) os /\ lost <> [] /\ skipn (Z.to_nat (1 + u)) ud = lost ++ ucs2_be text /\
    let data := deliver_octets smscf first oaf pid dcs (timestamp_of t q) udl ud in
    decodeSmsPdu_bytes data = Ok (mk_sms smsc (len data - len smscf) (SmsDeliver (Some oa) pid t (Some os) text)).
Proof.
  intros Hs Hf Hm Hh Ha Nt Hp Hd Al Ht Hu Hes He Iu R Hb L ud.
  destruct (overrun_part u es e (ucs2_be text) Hes He ltac:(lia)) as (os & Hos & E). destruct (overrun_lost u es e (ucs2_be text) R) as (lost & Nl & El). exists os, lost. repeat (split; auto). cbv zeta.
  rewrite (deliver_header smsc smscf first oa oaf pid dcs t q udl); auto; [|unfold in_octet; lia|apply fits_octets; auto; apply ucs2_octets; auto].
  unfold ud at 1. rewrite E. cbn [bind]. rewrite (coding_right dcs 2); auto; [|unfold in_octet; lia|lia]. unfold text_part. change (2 =? 0) with false. change (2 =? 2) with true. cbv iota.
  unfold decodeUcs2. rewrite <- (app_nil_r (ucs2_be text)) at 1. rewrite (decodeUcs2_ok text [] Hb); [reflexivity|]. right. split; auto; lia.
Qed.
Theorem cut_header smsc smscf first oa oaf pid dcs t q udl u es e frag more :
  std_smsc smsc smscf -> 0 <= first < 256 -> mti first = 0 -> udhi first = true -> std_address oa oaf -> type_of_number (nth 1 oaf 0) <> 5 ->
  in_octet pid -> in_octet dcs -> sms_time t q -> in_octet udl ->
  Forall element_ok es -> element_ok e -> element_octets e = frag ++ more -> more <> [] -> in_octet u -> len (body_octets es) < u ->
  decodeSmsPdu_bytes (deliver_octets smscf first oaf pid dcs (timestamp_of t q) udl (u :: body_octets es ++ frag)) = Err StopIteration.
Proof.
  intros Hs Hf Hm Hh Ha Nt Hp Hd Ht Hu Hes He Ee Nm Iu R.
  rewrite (deliver_header smsc smscf first oa oaf pid dcs t q udl); auto.
  - rewrite (cut_part u es e frag more); auto.
  - pose proof (fits_octets u es e [] Hes He Iu ltac:(constructor)) as X. rewrite app_nil_r, Ee in X. inversion X as [|? ? X1 X2]; subst. constructor; [unfold in_octet in Iu; lia|].
    apply Forall_app in X2 as [X3 X4]. apply Forall_app in X4 as [X4 _]. apply Forall_app. auto.
Qed.
Theorem wrong_length smsc smscf first oa oaf pid dcs t q udl u es e rest x :
  std_smsc smsc smscf -> 0 <= first < 256 -> mti first = 0 -> udhi first = true -> std_address oa oaf -> type_of_number (nth 1 oaf 0) <> 5 ->
  in_octet pid -> in_octet dcs -> sms_time t q -> in_octet udl ->
  Forall element_ok es -> octets_ok (element_octets e) -> element_exception e = Some x -> in_octet u -> len (body_octets es) < u -> octets_ok rest ->
  decodeSmsPdu_bytes (deliver_octets smscf first oaf pid dcs (timestamp_of t q) udl (u :: body_octets es ++ element_octets e ++ rest)) = Err x.
Proof.
  intros Hs Hf Hm Hh Ha Nt Hp Hd Ht Hu Hes He Ex Iu R Ho.
  rewrite (deliver_header smsc smscf first oa oaf pid dcs t q udl); auto.
  - rewrite (exception_part u es e rest x); auto.
  - constructor; [unfold in_octet in Iu; lia|]. apply Forall_app. split; [exact (elements_octets es Hes)|]. apply Forall_app. auto.
Qed.

(** ** Elements that are longer than the standard says *)
Lemma read_element e rest : element_read e ->
  exists o, ie_decode (element_octets e ++ rest) = Ok (o, rest) /\ element_object e o /\ ie_len o = len (element_octets e).
Proof.
  intros (Hi & Hd & Hl & Hx). destruct e as [id data]. cbn [el_id el_data] in *. unfold element_exception in Hx. cbn [el_id el_data] in Hx.
  unfold ie_decode, element_octets. cbn [el_id el_data app next bind].
  replace (Z.to_nat (len data)) with (length data) by (unfold len; lia).
  rewrite read_n_app. cbn [bind]. unfold mk_InformationElement, element_object. cbn [el_id el_data]. cbv zeta.
  assert (Hlen : forall sp, ie_len (mk_ie id (len data) data sp) = len (id :: len data :: data)) by (intro; unfold ie_len; cbn [ie_dataLength]; rewrite !len_cons; lia).
  destruct (Z.eqb_spec id 0) as [E0|N0].
  { cbn [andb] in Hx. destruct (Z.eqb_spec (len data) 3) as [L|L]; [|discriminate]. destruct data as [|a [|b [|c [|d data]]]]; try (unfold len in L; cbn [length] in L; lia).
    cbn [bind]. eexists. split; [reflexivity|]. split; [auto|apply Hlen]. }
  cbn [andb] in Hx. destruct (Z.eqb_spec id 8) as [E8|N8].
  { replace (id =? 4) with false in Hx by lia. cbn [andb orb] in Hx. destruct (Z.ltb_spec (len data) 4) as [L|L]; [discriminate|].
    destruct data as [|a [|b [|c [|d data]]]]; try (unfold len in L; cbn [length] in L; lia). cbn [bind]. eexists. split; [reflexivity|]. split; [|apply Hlen].
    inversion Hd as [|? ? Ha Hd1]; inversion Hd1 as [|? ? Hb Hd2]; subst. unfold word. cbn [nth]. rewrite !shl8_or by auto. auto. }
  destruct (Z.eqb_spec id 4) as [E4|N4].
  { cbn [andb] in Hx. destruct (Z.eqb_spec (len data) 2) as [L|L]; [|discriminate]. destruct data as [|a [|b [|c data]]]; try (unfold len in L; cbn [length] in L; lia).
    cbn [bind]. eexists. split; [reflexivity|]. split; [auto|apply Hlen]. }
  cbn [andb orb] in Hx. destruct (Z.eqb_spec id 5) as [E5|N5].
  { cbn [andb] in Hx. destruct (Z.ltb_spec (len data) 4) as [L|L]; [discriminate|].
    destruct data as [|a [|b [|c [|d data]]]]; try (unfold len in L; cbn [length] in L; lia). cbn [bind]. eexists. split; [reflexivity|]. split; [|apply Hlen].
    inversion Hd as [|? ? Ha Hd1]; inversion Hd1 as [|? ? Hb Hd2]; inversion Hd2 as [|? ? Hc Hd3]; inversion Hd3 as [|? ? Hdd _]; subst. unfold word. cbn [nth]. rewrite !shl8_or by auto. auto. }
  cbn [bind]. eexists. split; [reflexivity|]. split; [auto|apply Hlen].
Qed.
Lemma udh_reads es : Forall element_read es -> forall fuel r u rest, (length es < fuel)%nat -> u = r + len (body_octets es) ->
  exists os, decode_udh fuel (body_octets es ++ rest) r u = Ok (os, rest) /\ Forall2 element_object es os.
Proof.
  unfold body_octets. induction 1 as [|e es He Hes IH]; intros fuel r u rest Hf Hu.
  - cbn [map List.concat app] in *. rewrite len_nil in Hu. exists []. split; [|constructor]. destruct fuel; cbn [decode_udh]; replace (r <? u) with false by lia; reflexivity.
  - cbn [map List.concat] in *. rewrite len_app in Hu. pose proof (element_octets_long e). pose proof (len_nonneg (List.concat (map element_octets es))).
    destruct fuel as [|fuel]; [cbn [length] in Hf; lia|]. cbn [decode_udh]. replace (r <? u) with true by lia. rewrite <- app_assoc.
    destruct (read_element e (List.concat (map element_octets es) ++ rest) He) as (o & -> & Ho & Hlen). cbn [bind].
    destruct (IH fuel (r + ie_len o) u rest) as (os & -> & Hos); [cbn [length] in Hf; lia|lia|]. cbn [bind]. exists (o :: os). split; auto.
Qed.
Theorem read_elements smsc smscf first oa oaf pid dcs t q udl es rest :
  std_smsc smsc smscf -> 0 <= first < 256 -> mti first = 0 -> udhi first = true -> std_address oa oaf -> type_of_number (nth 1 oaf 0) <> 5 ->
  in_octet pid -> 0 <= dcs < 64 -> ts23038_alphabet dcs = 1 -> sms_time t q -> in_octet udl -> Forall element_read es -> len (header_octets es) <= 256 -> octets_ok rest ->
  exists os, Forall2 element_object es os /\
    let data := deliver_octets smscf first oaf pid dcs (timestamp_of t q) udl (header_octets es ++ rest) in
    decodeSmsPdu_bytes data = Ok (mk_sms smsc (len data - len smscf) (SmsDeliver (Some oa) pid t (Some os) rest)).
Proof.
  intros Hs Hf Hm Hh Ha Nt Hp Hd Al Ht Hu Hes L Ho. unfold header_octets in L. rewrite len_cons in L. pose proof (len_nonneg (List.concat (map element_octets es))) as L0.
  destruct (udh_reads es Hes (S (length (body_octets es ++ rest))) 0 (len (body_octets es)) rest) as (os & E & Hos); [rewrite app_length; pose proof (body_count es); lia|lia|].
  exists os. split; auto. cbv zeta.
  rewrite (deliver_header smsc smscf first oa oaf pid dcs t q udl); auto; [|unfold in_octet; lia|].
  - unfold udh_part, header_octets at 1. cbn [app next bind]. fold (body_octets es). rewrite E. cbn [bind]. rewrite (coding_right dcs 1); [reflexivity|unfold in_octet; lia|auto|lia].
  - apply Forall_app. split; auto. constructor; [lia|]. clear - Hes. induction Hes as [|e es He Hes IH]; [constructor|]. cbn [map List.concat]. apply Forall_app. split; [|exact IH].
    destruct He as (Hi & Hd & Hl & _). pose proof (len_nonneg (el_data e)). unfold in_octet in Hi. constructor; [lia|]. constructor; [lia|exact Hd].
Qed.
