(** Messages without a sender or without a text: proofs. *)
From Verif Require Import Base DateModel PduModel PduSpec SmsSpec SeptetProofs Gsm7Proofs FieldProofs TimeProofs AddressProofs SubmitProofs DeliverSpec DecodeProofs DecodeTotal AnonSpec.
From Coq Require Import ZifyBool.
Ltac Zify.zify_post_hook ::= Z.div_mod_to_equations.

(** ** strptime: fields of one or two characters *)
Definition short (P : Z -> Prop) (f : field) : Prop := forall s v r, In (v, r) (f s) ->
  (exists a b, s = a :: b :: r /\ (a = 32 \/ (P v /\ [a; b] = two_digits v))) \/ (exists a, s = a :: r).
Lemma two_dig a b : 48 <= a <= 57 -> 48 <= b <= 57 -> [a; b] = two_digits (dig a * 10 + dig b).
Proof. intros. unfold two_digits, dig. f_equal; [lia|f_equal; lia]. Qed.
Lemma short_alt2 (P : Z -> Prop) a b c d : 0 <= a -> b <= 9 -> 0 <= c -> d <= 9 ->
  (forall x y, a <= x <= b -> c <= y <= d -> P (x * 10 + y)) -> short P (alt2 a b c d).
Proof.
  intros Ha Hb Hc Hd HP s v r. unfold alt2. destruct s as [|x [|y s]]; try contradiction.
  destruct (in_cls _ _ x && in_cls _ _ y) eqn:E; [|contradiction]. unfold in_cls in E. intros [[= <- <-]|[]].
  left. exists x, y. split; auto. right. split; [unfold dig; apply HP; lia|apply two_dig; lia].
Qed.
Lemma short_alt1 P a b : short P (alt1 a b).
Proof.
  intros s v r. unfold alt1. destruct s as [|x s]; [contradiction|]. destruct (in_cls _ _ x); [|contradiction].
  intros [[= <- <-]|[]]. right. eauto.
Qed.
Lemma short_sp P a b : short P (alt_sp a b).
Proof.
  intros s v r H. unfold alt_sp in H. destruct s as [|x [|y s]]; try contradiction;
    repeat match type of H with context [match ?z with _ => _ end] => destruct z; try contradiction end.
  destruct H as [[= <- <-]|[]]. left. eauto.
Qed.
Lemma short_or P f g : short P f -> short P g -> short P (orf f g).
Proof. intros F G s v r H. unfold orf in H. apply in_app_or in H as [H|H]; auto. Qed.

Definition fields : list (field * (Z -> Prop)) :=
  [(f_y, fun v => 0 <= v <= 99); (f_m, fun v => 1 <= v <= 12); (f_d, fun v => 0 <= v <= 99); (f_H, fun v => 0 <= v <= 23);
   (f_M, fun v => 0 <= v <= 99); (f_S, fun v => 0 <= v <= 99)].
Lemma fields_short : Forall (fun p => short (snd p) (fst p)) fields.
Proof.
  unfold fields. repeat apply Forall_cons; try apply Forall_nil; cbn [fst snd]; unfold f_y, f_m, f_d, f_H, f_M, f_S; repeat apply short_or; try apply short_alt1; try apply short_sp;
    apply short_alt2; try lia.
Qed.
Lemma shrink ps : Forall (fun p : field * (Z -> Prop) => short (snd p) (fst p)) ps -> forall s vs r, In (vs, r) (match_fields (map fst ps) s) ->
  (length s <= length r + 2 * length ps)%nat.
Proof.
  induction 1 as [|p ps Hp F IH]; intros s vs r H; cbn [map match_fields] in H.
  - destruct H as [[= _ <-]|[]]. cbn. lia.
  - apply in_flat_map in H as ([v s'] & I & H). apply in_map_iff in H as ([vs' r'] & [= _ <-] & H). apply IH in H. cbn [snd] in H.
    apply Hp in I as [(a & b & -> & _)|(a & ->)]; cbn [length]; lia.
Qed.
Lemma two_each ps : Forall (fun p : field * (Z -> Prop) => short (snd p) (fst p)) ps -> forall s vs, In (vs, []) (match_fields (map fst ps) s) ->
  length s = (2 * length ps)%nat -> ~ In 32 s -> Forall2 (fun p v => snd p v) ps vs /\ s = flat_map two_digits vs.
Proof.
  induction 1 as [|p ps Hp F IH]; intros s vs H L N; cbn [map match_fields] in H.
  - destruct H as [[= <- ->]|[]]. split; constructor.
  - apply in_flat_map in H as ([v s'] & I & H). apply in_map_iff in H as ([vs' r'] & [= <- ->] & H).
    pose proof (shrink ps F _ _ _ H) as K. cbn [snd fst length] in *.
    apply Hp in I as [(a & b & -> & V)|(a & ->)]; cbn [length] in L; [|lia].
    destruct V as [->|[V E]]; [destruct N; left; auto|].
    apply IH in H as [H ->]; [|lia|intro I; apply N; right; right; auto]. split; [constructor; auto|]. cbn [flat_map]. rewrite <- E. reflexivity.
Qed.
Lemma two_inj n m : two_digits n = two_digits m -> n = m.
Proof. unfold two_digits. intros [= A B]. lia. Qed.
Lemma two_app n m (r s : str) : two_digits n ++ r = two_digits m ++ s -> n = m /\ r = s.
Proof. intro H. assert (two_digits n = two_digits m /\ r = s) as [A B] by (unfold two_digits in *; cbn [app] in H; injection H as -> -> ->; auto). split; auto. apply two_inj; auto. Qed.

(** twelve characters of which the last ten are five numbers *)
Lemma strptime_twelve a b n1 n2 n3 n4 n5 off t : a <> 32 -> b <> 32 -> Forall (fun n => 0 <= n <= 99) [n1; n2; n3; n4; n5] ->
  strptime_ymdHMS (a :: b :: flat_map two_digits [n1; n2; n3; n4; n5]) off = Ok t ->
  exists y, t = mk_datetime y n1 n2 n3 n4 n5 0 off /\ 1 <= n1 <= 12 /\ 0 <= n3 <= 23.
Proof.
  intros Na Nb Fn H. unfold strptime_ymdHMS, strptime_fields in H. change [f_y; f_m; f_d; f_H; f_M; f_S] with (map fst fields) in H.
  match type of H with context [match_fields ?fs ?s] => destruct (match_fields fs s) as [|[vs rest] more] eqn:M; [discriminate|]; assert (I : In (vs, rest) (match_fields fs s)) by (rewrite M; left; auto) end.
  destruct rest; [|discriminate]. apply (two_each _ fields_short) in I as [F E]; [|reflexivity|].
  2:{ repeat match goal with H : Forall _ (_ :: _) |- _ => inversion H; clear H; subst end. cbn. unfold two_digits. intro X. repeat (destruct X as [X|X]; [lia|]). exact X. }
  unfold fields in F. do 6 (inversion F as [|? ? ? ? ? F']; clear F; subst; rename F' into F). inversion F; clear F; subst. cbn [snd] in *.
  cbn [flat_map] in E.
  change (a :: b :: two_digits n1 ++ two_digits n2 ++ two_digits n3 ++ two_digits n4 ++ two_digits n5 ++ [])
    with ([a; b] ++ two_digits n1 ++ two_digits n2 ++ two_digits n3 ++ two_digits n4 ++ two_digits n5 ++ []) in E.
  match type of E with _ = two_digits ?v ++ _ => assert (E' : [a; b] = two_digits v) by (unfold two_digits in *; cbn [app] in E; injection E as -> -> _; reflexivity); rewrite E' in E end.
  apply two_app in E as [_ E]. do 5 (apply two_app in E as [-> E]).
  unfold datetime_new in H. destruct (valid_fields _ _ _ _ _ _); [|discriminate]. injection H as <-. eauto.
Qed.

(** ** Time stamps read one octet early *)
Lemma hex_not_space v : 0 <= v < 16 -> hexdigit_lower v <> 32.
Proof. unfold hexdigit_lower. destruct (v <? 10) eqn:E; lia. Qed.
Lemma pduOffset_sec n : 0 <= n <= 59 -> pduOffset (two_digits n) = Ok (td_of_minutes (15 * n)).
Proof.
  intro H. assert (F : forallb (fun n => match pduOffset (two_digits n) with Ok v => v =? td_of_minutes (15 * n) | Err _ => false end) (map Z.of_nat (seq 0 60)) = true) by (vm_compute; reflexivity).
  rewrite forallb_forall in F. specialize (F n). destruct (pduOffset (two_digits n)) as [v|e].
  - rewrite (proj1 (Z.eqb_eq v (td_of_minutes (15 * n)))); auto. apply F. apply in_map_iff. exists (Z.to_nat n). split; [lia|apply in_seq; lia].
  - discriminate F. apply in_map_iff. exists (Z.to_nat n). split; [lia|apply in_seq; lia].
Qed.
Definition zone (q : Z) : Z := swapped_bcd (Z.abs q) + (if q <? 0 then 8 else 0).
Definition late (x : Z) (t : datetime) : list Z :=
  [x mod 16; x / 16; dt_year t mod 100 / 10; dt_year t mod 100 mod 10; dt_month t / 10; dt_month t mod 10; dt_day t / 10; dt_day t mod 10;
   dt_hour t / 10; dt_hour t mod 10; dt_minute t / 10; dt_minute t mod 10; dt_second t / 10; dt_second t mod 10].
Lemma late_timestamp x t q tail : 0 <= x < 256 -> sms_time t q ->
  decodeTimestamp (x :: timestamp_of t q ++ tail) = Err ValueError \/
  (mistakable t /\ exists got z, decodeTimestamp (x :: timestamp_of t q ++ tail) = Ok (got, z :: tail) /\ one_field_late t got /\ timestamp_of t q = firstn 6 (timestamp_of t q) ++ [z]).
Proof.
  intros Hx Ht. pose proof Ht as (Hy & Hd & (Hh & Hmi & Hs) & Hus & Hq & Ho). pose proof (real_date_bounds _ _ _ Hd) as [Hm Hd'].
  destruct (Z.eq_dec (x / 16) 15) as [E15|N15].
  { left. unfold decodeTimestamp, decodeSemiOctets. cbn [decodeSemiOctets_loop]. rewrite E15. reflexivity. }
  unfold decodeTimestamp, decodeSemiOctets.
  assert (EP : exists z, x :: timestamp_of t q ++ tail = pairs (late x t) ++ z :: tail /\ timestamp_of t q = firstn 6 (timestamp_of t q) ++ [z]).
  { exists (last (timestamp_of t q) 0). unfold timestamp_of, ts23040_timestamp, swapped_bcd, late. cbn [pairs app firstn last]. split; auto. f_equal; lia. }
  destruct EP as (z & -> & Ez).
  rewrite (decode_pairs (late x t)); try reflexivity.
  2:{ unfold late. repeat constructor; lia. }
  2:{ cbn. repeat split; lia. }
  assert (EL : lows (late x t) = hexdigit_lower (x mod 16) :: hexdigit_lower (x / 16) ::
      flat_map two_digits [dt_year t mod 100; dt_month t; dt_day t; dt_hour t; dt_minute t] ++ two_digits (dt_second t)).
  { cbn [flat_map app]. rewrite <- !lows_two by lia. reflexivity. }
  rewrite EL.
  set (ds := hexdigit_lower (x mod 16) :: hexdigit_lower (x / 16) :: flat_map two_digits [dt_year t mod 100; dt_month t; dt_day t; dt_hour t; dt_minute t]).
  change (hexdigit_lower (x mod 16) :: hexdigit_lower (x / 16) :: flat_map two_digits [dt_year t mod 100; dt_month t; dt_day t; dt_hour t; dt_minute t] ++ two_digits (dt_second t))
    with (ds ++ two_digits (dt_second t)).
  assert (drop_last2 (ds ++ two_digits (dt_second t)) = ds) as -> by reflexivity.
  assert (last2 (ds ++ two_digits (dt_second t)) = two_digits (dt_second t)) as -> by reflexivity.
  destruct (strptime_ymdHMS ds None) as [d|e] eqn:S.
  - right. cbn [bind]. rewrite (pduOffset_sec _ Hs). cbn [bind]. apply strptime_twelve in S as (y & -> & A & B); try (apply hex_not_space; lia).
    2:{ repeat constructor; lia. }
    split; [unfold mistakable; lia|]. do 2 eexists. split; [reflexivity|]. split; auto. unfold one_field_late. cbn. auto 8.
  - left. cbn [bind]. unfold strptime_ymdHMS in S.
    match type of S with strptime_fields ?fs ?p ?s ?o = _ => destruct (strptime_fields_inv fs p s o _ eq_refl) as [X|(? & ? & ? & ? & ? & ? & X & _)]; rewrite X in S end;
      [injection S as <-; auto|discriminate].
Qed.

(** ** Whole messages *)
Lemma no_sender smsc smscf first toa pid dcs t q udl ud : std_smsc smsc smscf -> 0 <= first < 256 -> mti first = 0 -> in_octet toa -> in_octet pid -> in_octet dcs ->
  sms_time t q -> in_octet udl -> octets_ok ud ->
  let data := deliver_octets smscf first (no_address toa) pid dcs (timestamp_of t q) udl ud in
  decodeSmsPdu (pdu_str data) = decodeSmsPdu_bytes data /\
  (~ mistakable t -> decodeSmsPdu_bytes data = Err ValueError) /\
  (forall m, decodeSmsPdu_bytes data = Ok m -> sms_smsc m = smsc /\ exists got udh text, sms_type m = SmsDeliver None toa got udh text /\ one_field_late t got).
Proof.
  intros Hs Hf Hm Ha Hp Hd Ht Hu Hud data. unfold in_octet in *. split.
  { apply decode_hex. unfold data, deliver_octets, no_address. apply Forall_app; split; [exact (std_smsc_octets _ _ Hs)|]. cbn [app].
    do 5 (constructor; [lia|]). apply Forall_app; split; [exact (timestamp_octets _ _ Ht)|]. constructor; [lia|auto]. }
  assert (E : decodeSmsPdu_bytes data = let* (time, it) := decodeTimestamp (dcs :: timestamp_of t q ++ udl :: ud) in let* (udl, it) := next it in
    let* (udh, text) := decodeUserData it udl (decodeDataCoding pid) (udhi first) in Ok (mk_sms smsc (len data - len smscf) (SmsDeliver None toa time udh text))).
  { unfold decodeSmsPdu_bytes. cbv zeta. unfold data at 1, deliver_octets, no_address. rewrite (decode_std_smsc _ _ _ Hs). cbn [bind app next].
    destruct (first_bits first Hf) as [-> ->]. rewrite Hm. change (0 =? 0) with true. cbv iota.
    unfold decodeAddressField at 1. cbn [next bind]. change (0 <? 0) with false. cbv iota. cbn [bind next].
    destruct (decodeTimestamp _) as [[time it]|]; cbn [bind]; auto. destruct (next it) as [[u it']|]; cbn [bind]; auto. destruct (decodeUserData _ _ _ _) as [[? ?]|]; auto. }
  rewrite E. clear E. destruct (late_timestamp dcs t q (udl :: ud) ltac:(lia) Ht) as [->|(Mt & got & z & -> & Ol & _)]; cbn [bind next].
  - split; auto. discriminate.
  - split; [tauto|]. intro m. destruct (decodeUserData _ _ _ _) as [[udh text]|]; cbn [bind]; [|discriminate]. intros [= <-]. cbn [sms_smsc sms_type]. split; auto. exists got, udh, text. auto.
Qed.
Lemma no_recipient smsc smscf first mr toa t1 q1 t2 q2 status optional : std_smsc smsc smscf -> 0 <= first < 256 -> mti first = 2 -> in_octet mr -> in_octet toa ->
  sms_time t1 q1 -> sms_time t2 q2 -> in_octet status -> octets_ok optional ->
  let data := status_report_octets smscf first mr (no_address toa) (timestamp_of t1 q1) (timestamp_of t2 q2) status optional in
  decodeSmsPdu (pdu_str data) = decodeSmsPdu_bytes data /\
  (~ mistakable t1 \/ ~ mistakable t2 -> decodeSmsPdu_bytes data = Err ValueError) /\
  (forall m, decodeSmsPdu_bytes data = Ok m -> sms_smsc m = smsc /\ exists got1 got2 z, sms_type m = SmsStatusReport mr None got1 got2 z /\
     one_field_late t1 got1 /\ one_field_late t2 got2 /\ timestamp_of t2 q2 = firstn 6 (timestamp_of t2 q2) ++ [z]).
Proof.
  intros Hs Hf Hm Hr Ha Ht1 Ht2 Hst Hopt data. unfold in_octet in *. split.
  { apply decode_hex. unfold data, status_report_octets, no_address. apply Forall_app; split; [exact (std_smsc_octets _ _ Hs)|]. cbn [app].
    do 4 (constructor; [lia|]). apply Forall_app; split; [exact (timestamp_octets _ _ Ht1)|]. apply Forall_app; split; [exact (timestamp_octets _ _ Ht2)|]. constructor; [lia|auto]. }
  assert (E : decodeSmsPdu_bytes data = let* (time, it) := decodeTimestamp (toa :: timestamp_of t1 q1 ++ timestamp_of t2 q2 ++ status :: optional) in
    let* (discharge, it) := decodeTimestamp it in let* (st, it) := next it in
    Ok (mk_sms smsc (len data - len smscf) (SmsStatusReport mr None time discharge st))).
  { unfold decodeSmsPdu_bytes. cbv zeta. unfold data at 1, status_report_octets, no_address. rewrite (decode_std_smsc _ _ _ Hs). cbn [bind app next].
    destruct (first_bits first Hf) as [-> ->]. rewrite Hm. change (2 =? 0) with false. change (2 =? 1) with false. change (2 =? 2) with true. cbv iota. cbn [next bind].
    unfold decodeAddressField at 1. cbn [next bind]. change (0 <? 0) with false. cbv iota. cbn [bind next].
    destruct (decodeTimestamp _) as [[time it]|]; cbn [bind]; auto. destruct (decodeTimestamp it) as [[? it']|]; cbn [bind]; auto. destruct (next it') as [[? ?]|]; auto. }
  rewrite E. clear E. destruct (late_timestamp toa t1 q1 (timestamp_of t2 q2 ++ status :: optional) ltac:(lia) Ht1) as [->|(Mt1 & got1 & z1 & -> & Ol1 & Ez1)]; cbn [bind].
  - split; auto. discriminate.
  - assert (Hz : 0 <= z1 < 256). { pose proof (timestamp_octets _ _ Ht1) as O. rewrite Ez1 in O. apply Forall_app in O as [_ O]. inversion O; subst. auto. }
    destruct (late_timestamp z1 t2 q2 (status :: optional) Hz Ht2) as [->|(Mt2 & got2 & z2 & -> & Ol2 & Ez2)]; cbn [bind next].
    + split; auto. discriminate.
    + split; [tauto|]. intros m [= <-]. cbn [sms_smsc sms_type]. split; auto. exists got1, got2, z2. auto.
Qed.

(** no text *)
Lemma no_text smsc smscf first oa oaf pid dcs t q : std_smsc smsc smscf -> 0 <= first < 256 -> mti first = 0 -> std_address oa oaf ->
  (type_of_number (nth 1 oaf 0) = 5 -> ~ In 0xA7 oa /\ ~ In 0x0C oa) -> in_octet pid -> general_dcs dcs 0 -> sms_time t q -> udhi first = false ->
  let data := deliver_octets smscf first oaf pid dcs (timestamp_of t q) 0 [] in
  decodeSmsPdu_bytes data = Err TypeError /\ decodeSmsPdu (pdu_str data) = Err TypeError.
Proof.
  intros Hs Hf Hm Ha Ka Hp Hd Ht Hh data.
  destruct (decode_std_address' oa oaf Ha Ka) as (oa' & Ra & Da).
  pose proof (std_smsc_octets _ _ Hs) as O1. pose proof (std_address_octets _ _ Ha) as O2. pose proof (timestamp_octets _ _ Ht) as O3.
  assert (O4 : octets_ok ([pid; dcs] ++ timestamp_of t q ++ [0] ++ [])).
  { destruct Hd as [Hd _]. unfold in_octet in Hp. constructor; [lia|]. constructor; [lia|]. apply Forall_app; split; auto. repeat constructor; lia. }
  assert (E : decodeSmsPdu_bytes data = Err TypeError).
  { unfold decodeSmsPdu_bytes. cbv zeta. unfold data at 1, deliver_octets. rewrite (decode_std_smsc _ _ _ Hs). cbn [bind app next].
    destruct (first_bits first Hf) as [-> ->]. rewrite Hm, Hh. change (0 =? 0) with true. cbv iota.
    change (oaf ++ pid :: dcs :: timestamp_of t q ++ [0]) with (oaf ++ ([pid; dcs] ++ timestamp_of t q ++ [0] ++ [])).
    rewrite Da by auto. cbn [bind app next]. unfold timestamp_of at 1. rewrite (decodeTimestamp_ok t q _ Ht). cbn [bind next]. rewrite (general_dcs_decode _ _ Hd). reflexivity. }
  split; auto. rewrite decode_hex; auto. unfold data, deliver_octets. apply Forall_app; split; auto. constructor; [lia|]. apply Forall_app; auto.
Qed.
Lemma only_header smsc smscf first oa oaf pid dcs t q es udl : std_smsc smsc smscf -> 0 <= first < 256 -> mti first = 0 -> std_address oa oaf ->
  (type_of_number (nth 1 oaf 0) = 5 -> ~ In 0xA7 oa /\ ~ In 0x0C oa) -> in_octet pid -> general_dcs dcs 0 -> sms_time t q ->
  udhi first = true -> header_ok es -> in_octet udl ->
  let data := deliver_octets smscf first oaf pid dcs (timestamp_of t q) udl (header_octets es) in
  decodeSmsPdu_bytes data = Err StopIteration /\ decodeSmsPdu (pdu_str data) = Err StopIteration.
Proof.
  intros Hs Hf Hm Ha Ka Hp Hd Ht Hh He Hu data.
  destruct (decode_std_address' oa oaf Ha Ka) as (oa' & Ra & Da).
  pose proof (std_smsc_octets _ _ Hs) as O1. pose proof (std_address_octets _ _ Ha) as O2. pose proof (timestamp_octets _ _ Ht) as O3.
  assert (Hof : header_of first (Some es) (header_octets es)) by (cbn; auto).
  assert (O0 : octets_ok (header_octets es)).
  { destruct He as [F L]. unfold header_octets. constructor; [pose proof (len_nonneg (List.concat (map element_octets es))); lia|apply elements_octets; auto]. }
  assert (O4 : octets_ok ([pid; dcs] ++ timestamp_of t q ++ [udl] ++ header_octets es)).
  { destruct Hd as [Hd _]. unfold in_octet in *. constructor; [lia|]. constructor; [lia|]. apply Forall_app; split; auto. constructor; [lia|auto]. }
  assert (E : decodeSmsPdu_bytes data = Err StopIteration).
  { unfold decodeSmsPdu_bytes. cbv zeta. unfold data at 1, deliver_octets. rewrite (decode_std_smsc _ _ _ Hs). cbn [bind app next].
    destruct (first_bits first Hf) as [-> ->]. rewrite Hm, Hh. change (0 =? 0) with true. cbv iota.
    change (oaf ++ pid :: dcs :: timestamp_of t q ++ udl :: header_octets es) with (oaf ++ ([pid; dcs] ++ timestamp_of t q ++ [udl] ++ header_octets es)).
    rewrite Da by auto. cbn [bind app next]. unfold timestamp_of at 1. rewrite (decodeTimestamp_ok t q _ Ht). cbn [bind next]. rewrite (general_dcs_decode _ _ Hd).
    destruct (udh_part_ok first (Some es) (header_octets es) [] Hof) as (udh & X & _). rewrite app_nil_r, Hh in X.
    change (decodeUserData (header_octets es) udl 0 true) with
      (let* (udh, udhLen, it) := udh_part true (header_octets es) in
       let* (prevOctet, shift, it) := (let* (p, it) := next it in Ok (Some p, ((udhLen + 1) * 8) mod 7 + 1, it)) in
       let* (septets, _) := unpackSeptets it (Some udl) prevOctet shift in let* text := decodeGsm7 septets in Ok (udh, text)).
    rewrite X. reflexivity. }
  split; auto. rewrite decode_hex; auto. unfold data, deliver_octets. apply Forall_app; split; auto. constructor; [lia|]. apply Forall_app; auto.
Qed.
