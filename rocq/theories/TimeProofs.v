(** Time stamps: proofs. *)
From Verif Require Import Base PduModel PduSpec SeptetProofs Gsm7Proofs FieldProofs.
From Coq Require Import ZifyBool.
Ltac Zify.zify_post_hook ::= Z.div_mod_to_equations.

(** ** Calendar *)
Ltac twelve m := let H := fresh in
  assert (m = 1 \/ m = 2 \/ m = 3 \/ m = 4 \/ m = 5 \/ m = 6 \/ m = 7 \/ m = 8 \/ m = 9 \/ m = 10 \/ m = 11 \/ m = 12) as H by lia;
  destruct H as [->|[->|[->|[->|[->|[->|[->|[->|[->|[->|[->| ->]]]]]]]]]]].

Lemma is_leap_spec y : is_leap y = true <-> leap_year y.
Proof. unfold is_leap, leap_year. lia. Qed.

Lemma days_in_month_spec y m d : 1 <= m <= 12 -> 1 <= d ->
  (d <= days_in_month y m <-> real_date y m d).
Proof.
  intros Hm Hd. unfold real_date, days_in_month. pose proof (is_leap_spec y) as L.
  destruct (Z.eqb_spec m 2) as [->|Hn].
  - change (nth (Z.to_nat (2 - 1)) month_lengths 0) with 28.
    destruct (is_leap y).
    + assert (leap_year y) by (apply L; auto). destruct (Z.eq_dec d 29); intuition lia.
    + assert (~ leap_year y) by (intro X; apply L in X; discriminate). intuition lia.
  - twelve m; try lia; 
      match goal with |- context [nth ?a ?b ?c] => let v := eval vm_compute in (nth a b c) in change (nth a b c) with v end;
      match goal with |- context [if ?b then _ else _] => let v := eval vm_compute in b in change b with v; cbv iota end;
      intuition lia.
Qed.

Lemma valid_fields_spec y mo d h mi s :
  valid_fields y mo d h mi s = true <-> 1 <= y <= 9999 /\ real_date y mo d /\ real_time h mi s.
Proof.
  unfold valid_fields, real_time. split.
  - intro H. assert (1 <= mo <= 12 /\ 1 <= d /\ d <= days_in_month y mo) as (A & B & C) by lia.
    apply days_in_month_spec in C; auto. split; [lia|split; auto; lia].
  - intros (A & B & C). assert (1 <= mo <= 12 /\ 1 <= d) as [D E] by (destruct B; tauto).
    apply days_in_month_spec in B; auto. lia.
Qed.

(** ** strptime on two-digit fields *)
Definition takes (f : field) (n : Z) : Prop := forall s, exists more, f (two_digits n ++ s) = (n, s) :: more.

Lemma td_hi n : 0 <= n <= 99 -> dig (48 + n / 10) * 10 + dig (48 + n mod 10) = n.
Proof. unfold dig. lia. Qed.

Ltac fld := unfold takes, two_digits, orf, alt2, alt1, in_cls; intros s; cbn [app];
  repeat match goal with
  | |- context [if ?b then _ else _] => 
      let E := fresh in destruct b eqn:E; [|cbn [app]; try (exfalso; lia)]
  end; cbn [app]; rewrite ?td_hi by lia; eauto; exfalso; lia.

Lemma takes_y n : 0 <= n <= 99 -> takes f_y n.
Proof. intro H. unfold f_y. fld. Qed.
Ltac pick := unfold takes, two_digits, orf, alt2, alt1, in_cls; intros s; cbn [app];
   repeat match goal with
  | |- context [(?a <=? ?b) && (?c <=? ?d) && ((?e <=? ?f) && (?g <=? ?h))] => 
      let E := fresh in
      destruct ((a <=? b) && (c <=? d) && ((e <=? f) && (g <=? h))) eqn:E; 
      [cbn [app]; rewrite td_hi by lia; eexists; reflexivity|cbn [app]]
  end; exfalso; lia.
Lemma takes_m n : 1 <= n <= 12 -> takes f_m n.
Proof. intro H. unfold f_m. pick. Qed.
Lemma takes_d n : 1 <= n <= 31 -> takes f_d n.
Proof. intro H. unfold f_d. pick. Qed.
Lemma takes_H n : 0 <= n <= 23 -> takes f_H n.
Proof. intro H. unfold f_H. pick. Qed.
Lemma takes_M n : 0 <= n <= 59 -> takes f_M n.
Proof. intro H. unfold f_M. pick. Qed.
Lemma takes_S n : 0 <= n <= 59 -> takes f_S n.
Proof. intro H. unfold f_S. pick. Qed.

Lemma match_cons f fs n s vs r more0 : takes f n -> match_fields fs s = (vs, r) :: more0 ->
  exists more, match_fields (f :: fs) (two_digits n ++ s) = (n :: vs, r) :: more.
Proof.
  intros Hf Hm. destruct (Hf s) as [m E]. cbn [match_fields]. rewrite E. cbn [flat_map fst snd].
  rewrite Hm. cbn [map app fst snd]. eexists; reflexivity.
Qed.
Lemma match_lit c fs s vs r more0 : match_fields fs s = (vs, r) :: more0 ->
  exists more, match_fields (f_lit c :: fs) (c :: s) = (0 :: vs, r) :: more.
Proof.
  intros Hm. cbn [match_fields f_lit]. rewrite Z.eqb_refl. cbn [flat_map fst snd].
  rewrite Hm. cbn [map app fst snd]. eexists; reflexivity.
Qed.

Lemma full_year_mod y : 1969 <= y <= 2068 -> full_year (y mod 100) = y.
Proof. intro H. unfold full_year. destruct (Z.leb_spec (y mod 100) 68); lia. Qed.

Lemma real_date_bounds y m d : real_date y m d -> 1 <= m <= 12 /\ 1 <= d <= 31.
Proof.
  intro H. assert (1 <= m <= 12 /\ 1 <= d) as [Hm Hd] by (destruct H; tauto). split; auto. split; auto.
  apply days_in_month_spec in H; auto. unfold days_in_month in H.
  destruct (m =? 2); [destruct (is_leap y); lia|]. match type of H with context [if ?b then _ else _] => destruct b end; lia.
Qed.

Lemma strptime_ok t q off : sms_time t q ->
  strptime_ymdHMS (strftime_ymdHMS t) off =
  Ok (mk_datetime (dt_year t) (dt_month t) (dt_day t) (dt_hour t) (dt_minute t) (dt_second t) 0 off).
Proof.
  intros (Hy & Hd & Ht & Hus & Hq & Ho). pose proof (real_date_bounds _ _ _ Hd) as [Hm Hd'].
  destruct Ht as (Hh & Hmi & Hs).
  unfold strptime_ymdHMS, strptime_fields, strftime_ymdHMS.
  assert (E0 : match_fields [] [] = [([], [])]) by reflexivity.
  destruct (match_cons f_S [] (dt_second t) [] [] [] [] (takes_S _ Hs) E0) as [m1 E1].
  destruct (match_cons f_M _ (dt_minute t) _ _ _ _ (takes_M _ Hmi) E1) as [m2 E2].
  destruct (match_cons f_H _ (dt_hour t) _ _ _ _ (takes_H _ Hh) E2) as [m3 E3].
  destruct (match_cons f_d _ (dt_day t) _ _ _ _ (takes_d _ Hd') E3) as [m4 E4].
  destruct (match_cons f_m _ (dt_month t) _ _ _ _ (takes_m _ Hm) E4) as [m5 E5].
  destruct (match_cons f_y _ (dt_year t mod 100) _ _ _ _ (takes_y (dt_year t mod 100) ltac:(lia)) E5) as [m6 E6].
  rewrite app_nil_r in E6. rewrite E6. rewrite full_year_mod by lia.
  unfold datetime_new. replace (valid_fields _ _ _ _ _ _) with true; [reflexivity|].
  symmetry. apply valid_fields_spec. unfold real_time. split; [lia|]. auto.
Qed.

(** ** Time zone *)
Lemma two_digits_nibs n : 0 <= n <= 99 -> nibs (two_digits n) [n / 10; n mod 10].
Proof.
  intro H. unfold two_digits. constructor; [|constructor; [|constructor]]; rewrite hexval_digit by lia; f_equal; lia.
Qed.

Definition tz_tens (q : Z) : Z := Z.abs q / 10 + if q <? 0 then 8 else 0.
Definition tz_units (q : Z) : Z := Z.abs q mod 10.

Definition all80 : list Z := map (fun i => Z.of_nat i - 79) (seq 0 159).
Lemma in_all80 q : -80 < q < 80 -> In q all80.
Proof.
  intro H. unfold all80. apply in_map_iff. exists (Z.to_nat (q + 79)). split; [lia|]. apply in_seq. lia.
Qed.

Lemma pduOffset_q q : -80 < q < 80 ->
  pduOffset [hexdigit_lower (tz_tens q); hexdigit_lower (tz_units q)] = Ok (td_of_minutes (15 * q)).
Proof.
  intro H.
  assert (forallb (fun q => match pduOffset [hexdigit_lower (tz_tens q); hexdigit_lower (tz_units q)] with
     Ok o => o =? td_of_minutes (15 * q) | _ => false end) all80 = true) as F by (vm_compute; reflexivity).
  rewrite forallb_forall in F. specialize (F q (in_all80 q H)). cbv beta in F.
  destruct (pduOffset _); [f_equal; lia|discriminate].
Qed.

Definition tz_str (q : Z) : res str :=
  let tzDelta := td_of_minutes (15 * q) in
        if 0 <=? td_days tzDelta then
          Ok (two_digits (td_seconds tzDelta / 60 / 15))
        else
          let tzVal := (td_days tzDelta * -3600 * 24 - td_seconds tzDelta) / 60 / 15 in
          let* v := py_int 16 (two_digits tzVal) in
          let tzVal := Z.lor v 128 in
          Ok [hexdigit_upper (tzVal / 16); hexdigit_upper (tzVal mod 16)].
Lemma tz_str_q q : -80 < q < 80 -> exists s, tz_str q = Ok s /\ nibs s [tz_tens q; tz_units q].
Proof.
  intro H.
  assert (forallb (fun q => match tz_str q with
     Ok [a; b] => match hexval a, hexval b with Some x, Some y => (x =? tz_tens q) && (y =? tz_units q) | _, _ => false end
     | _ => false end) all80 = true) as F by (vm_compute; reflexivity).
  rewrite forallb_forall in F. specialize (F q (in_all80 q H)). cbv beta in F.
  destruct (tz_str q) as [[|a [|b [|]]]|]; try discriminate.
  destruct (hexval a) as [x|] eqn:Ea; [|discriminate]. destruct (hexval b) as [y|] eqn:Eb; [|discriminate].
  exists [a; b]. split; auto. assert (x = tz_tens q /\ y = tz_units q) as [<- <-] by lia.
  constructor; auto.
Qed.

Definition time_nibs (t : datetime) (q : Z) : list Z :=
  [dt_year t mod 100 / 10; dt_year t mod 100 mod 10; dt_month t / 10; dt_month t mod 10; dt_day t / 10; dt_day t mod 10;
   dt_hour t / 10; dt_hour t mod 10; dt_minute t / 10; dt_minute t mod 10; dt_second t / 10; dt_second t mod 10;
   tz_tens q; tz_units q].

Lemma tz_octet q : tz_tens q + 16 * tz_units q = swapped_bcd (Z.abs q) + if q <? 0 then 8 else 0.
Proof. unfold tz_tens, tz_units, swapped_bcd. destruct (q <? 0); lia. Qed.

Lemma time_pairs t q : pairs (time_nibs t q) =
  ts23040_timestamp (dt_year t) (dt_month t) (dt_day t) (dt_hour t) (dt_minute t) (dt_second t) q.
Proof. cbn [time_nibs pairs]. rewrite tz_octet. reflexivity. Qed.

Lemma encodeTimestamp_ok t q : sms_time t q -> encodeTimestamp t =
  Ok (ts23040_timestamp (dt_year t) (dt_month t) (dt_day t) (dt_hour t) (dt_minute t) (dt_second t) q).
Proof.
  intros H. pose proof H as (Hy & Hd & Ht & Hus & Hq & Ho). pose proof (real_date_bounds _ _ _ Hd) as [Hm Hd'].
  destruct Ht as (Hh & Hmi & Hs).
  unfold encodeTimestamp. rewrite Ho.
  destruct (tz_str_q q Hq) as (s & Es & Hn). unfold tz_str in Es. cbv zeta in Es. rewrite Es. cbn [bind].
  rewrite <- time_pairs. apply encodeSemiOctets_even.
  - unfold strftime_ymdHMS, time_nibs.
    rewrite <- !app_assoc.
    change (nibs (two_digits (dt_year t mod 100) ++ two_digits (dt_month t) ++ two_digits (dt_day t) ++
       two_digits (dt_hour t) ++ two_digits (dt_minute t) ++ two_digits (dt_second t) ++ s)
      ([dt_year t mod 100 / 10; dt_year t mod 100 mod 10] ++ [dt_month t / 10; dt_month t mod 10] ++ [dt_day t / 10; dt_day t mod 10] ++
       [dt_hour t / 10; dt_hour t mod 10] ++ [dt_minute t / 10; dt_minute t mod 10] ++ [dt_second t / 10; dt_second t mod 10] ++
       [tz_tens q; tz_units q])).
    repeat apply Forall2_app; auto; apply two_digits_nibs; lia.
  - inversion Hn as [|? ? ? ? ? X2]; inversion X2 as [|? ? ? ? ? X3]; inversion X3; subst. reflexivity.
Qed.

Lemma lows_two n : 0 <= n <= 99 -> lows [n / 10; n mod 10] = two_digits n.
Proof.
  intro H. unfold lows, two_digits, hexdigit_lower. cbn [map].
  replace (n / 10 <? 10) with true by lia. replace (n mod 10 <? 10) with true by lia. reflexivity.
Qed.

Lemma time_lows t q : sms_time t q -> lows (time_nibs t q) =
  strftime_ymdHMS t ++ [hexdigit_lower (tz_tens q); hexdigit_lower (tz_units q)].
Proof.
  intros (Hy & Hd & Ht & Hus & Hq & Ho). pose proof (real_date_bounds _ _ _ Hd) as [Hm Hd'].
  destruct Ht as (Hh & Hmi & Hs). unfold strftime_ymdHMS.
  rewrite <- !lows_two by lia. reflexivity.
Qed.

Lemma time_nibs_range t q : sms_time t q -> Forall (fun v => 0 <= v < 16) (time_nibs t q) /\ hi_ok (time_nibs t q).
Proof.
  intros (Hy & Hd & Ht & Hus & Hq & Ho). pose proof (real_date_bounds _ _ _ Hd) as [Hm Hd'].
  destruct Ht as (Hh & Hmi & Hs). unfold time_nibs, tz_tens, tz_units. split.
  - repeat constructor; try lia; destruct (q <? 0); lia.
  - simpl. repeat split; try lia.
Qed.

Lemma decodeTimestamp_ok t q tail : sms_time t q ->
  decodeTimestamp (ts23040_timestamp (dt_year t) (dt_month t) (dt_day t) (dt_hour t) (dt_minute t) (dt_second t) q ++ tail)
  = Ok (t, tail).
Proof.
  intro H. rewrite <- time_pairs. unfold decodeTimestamp, decodeSemiOctets.
  destruct (time_nibs_range t q H) as [Hr Hh].
  rewrite (decode_pairs (time_nibs t q) Hr Hh eq_refl); try reflexivity.
  rewrite (time_lows t q H).
  set (ds := strftime_ymdHMS t). set (tz := [hexdigit_lower (tz_tens q); hexdigit_lower (tz_units q)]).
  assert (drop_last2 (ds ++ tz) = ds) as ->.
  { unfold drop_last2. rewrite app_length. replace (length ds + length tz - 2)%nat with (length ds) by (simpl; lia).
    rewrite firstn_app, firstn_all, Nat.sub_diag. cbn [firstn]. apply app_nil_r. }
  assert (last2 (ds ++ tz) = tz) as ->.
  { unfold last2. rewrite app_length. replace (length ds + length tz - 2)%nat with (length ds) by (simpl; lia).
    rewrite skipn_app, skipn_all, Nat.sub_diag. reflexivity. }
  unfold ds. rewrite (strptime_ok t q None H). cbn [bind].
  pose proof H as (Hy & Hd & Ht & Hus & Hq & Ho).
  unfold tz. rewrite pduOffset_q by lia. cbn. destruct t; simpl in *. subst. reflexivity.
Qed.

(** ** Arbitrary input *)
Lemma strptime_fields_inv fs pick s off r : strptime_fields fs pick s off = r ->
  r = Err ValueError \/ exists y mo d h mi se, r = Ok (mk_datetime (full_year y) mo d h mi se 0 off) /\
     valid_fields (full_year y) mo d h mi se = true.
Proof.
  unfold strptime_fields. destruct (match_fields fs s) as [|[vs rest] ?]; [intros <-; auto|].
  destruct rest; [|intros <-; auto]. destruct (pick vs) as [[[[[[y mo] d] h] mi] se]|]; [|intros <-; auto].
  unfold datetime_new. destruct (valid_fields _ _ _ _ _ _) eqn:E; [|intros <-; auto].
  intros <-. right. exists y, mo, d, h, mi, se. auto.
Qed.

Lemma strptime_empty fs pick off : strptime_fields (f_y :: fs) pick [] off = Err ValueError.
Proof. reflexivity. Qed.

Lemma pduOffset_inv s : (length s <= 2)%nat ->
  Forall (fun c => exists v, 0 <= v < 16 /\ c = hexdigit_lower v) s ->
  (length s = 2)%nat ->
  pduOffset s = Err ValueError \/ exists q, pduOffset s = Ok (td_of_minutes (15 * q)) /\ -80 < q < 80.
Proof.
  intros _ Hf Hl. destruct s as [|a [|b [|]]]; try discriminate.
  inversion Hf as [|? ? (x & Hx & ->) Hf']; inversion Hf' as [|? ? (y & Hy & ->) _]; subst.
  assert (forallb (fun x => forallb (fun y =>
    match pduOffset [hexdigit_lower x; hexdigit_lower y] with
    | Err ValueError => true
    | Ok o => existsb (fun q => o =? td_of_minutes (15 * q)) all80
    | _ => false end) (map Z.of_nat (seq 0 16))) (map Z.of_nat (seq 0 16)) = true) as F by (vm_compute; reflexivity).
  assert (forall v, 0 <= v < 16 -> In v (map Z.of_nat (seq 0 16))) as Hin.
  { intros v Hv. apply in_map_iff. exists (Z.to_nat v). split; [lia|apply in_seq; lia]. }
  rewrite forallb_forall in F. specialize (F x (Hin x Hx)). cbv beta in F.
  rewrite forallb_forall in F. specialize (F y (Hin y Hy)). cbv beta in F.
  destruct (pduOffset _) as [o|e]; [right|left; destruct e; try discriminate; auto].
  apply existsb_exists in F as (q & Hq & E). exists q. split; [f_equal; lia|].
  unfold all80 in Hq. apply in_map_iff in Hq as (k & <- & Hk). apply in_seq in Hk. lia.
Qed.

Lemma decodeTimestamp_inv it : octets_ok it ->
  decodeTimestamp it = Err ValueError \/
  exists t rest q k, decodeTimestamp it = Ok (t, rest) /\ rest = skipn k it /\ (k <= 7)%nat /\
    1969 <= dt_year t <= 2068 /\ real_date (dt_year t) (dt_month t) (dt_day t) /\
    real_time (dt_hour t) (dt_minute t) (dt_second t) /\ dt_us t = 0 /\
    dt_utcoff t = Some (td_of_minutes (15 * q)) /\ -80 < q < 80.
Proof.
  intro Hit. unfold decodeTimestamp.
  destruct (decodeSemiOctets it (Some 7)) as [ds rest] eqn:E.
  pose proof (decode_loop_hex it Hit (Some 7) 0) as Hf. unfold decodeSemiOctets in E. rewrite E in Hf. cbn [fst] in Hf.
  destruct (decode_loop_rest _ _ _ _ _ E) as (k & Hk & _ & Hk7).
  unfold strptime_ymdHMS.
  match goal with |- context [strptime_fields ?fs ?p ?s ?o] =>
    destruct (strptime_fields_inv fs p s o _ eq_refl) as [X|(y & mo & d & h & mi & se & X & V)] end.
  { left. rewrite X. reflexivity. }
  assert (Hlen : (2 < length ds)%nat).
  { destruct (Nat.le_gt_cases (length ds) 2) as [L|L]; auto. exfalso.
    unfold drop_last2 in X. replace (length ds - 2)%nat with 0%nat in X by lia. cbn [firstn] in X.
    rewrite strptime_empty in X. discriminate. }
  rewrite X. cbn [bind].
  assert (H2 : (length (last2 ds) = 2)%nat) by (unfold last2; rewrite skipn_length; lia).
  assert (Hf2 : Forall (fun c => exists v, 0 <= v < 16 /\ c = hexdigit_lower v) (last2 ds)).
  { unfold last2. rewrite <- (firstn_skipn (length ds - 2) ds) in Hf. apply Forall_app in Hf. tauto. }
  destruct (pduOffset_inv (last2 ds) ltac:(lia) Hf2 H2) as [->|(q & -> & Hq)]; [left; reflexivity|].
  right. cbn [bind dt_year dt_month dt_day dt_hour dt_minute dt_second dt_us].
  apply valid_fields_spec in V as (V1 & V2 & V3).
  eexists _, rest, q, k. split; [reflexivity|]. cbn [dt_year dt_month dt_day dt_hour dt_minute dt_second dt_us dt_utcoff].
  split; auto. split; [lia|]. split; [|auto].
  (* the year comes from two digits *)
  unfold strptime_fields in X.
  destruct (match_fields _ _) as [|[vs r'] more] eqn:M; [discriminate|].
  assert (Hy : match vs with v :: _ => 0 <= v <= 99 | [] => False end).
  { clear - M. cbn [match_fields] in M.
    set (s := drop_last2 ds) in *. clearbody s.
    unfold f_y at 1, alt2, in_cls in M. destruct s as [|a [|b s]]; try discriminate.
    destruct (_ && _) eqn:C; [|discriminate].
    cbn [flat_map fst snd] in M. rewrite app_nil_r in M.
    match type of M with map _ ?l = _ => destruct l as [|[vs' r''] l'] end; [discriminate|].
    cbn [map fst snd] in M. injection M as <- _ _. unfold dig. lia. }
  destruct r' as [|]; [|discriminate].
  destruct vs as [|v0 vs]; [tauto|].
  destruct vs as [|v1 [|v2 [|v3 [|v4 [|v5 [|]]]]]]; try discriminate.
  unfold datetime_new in X. destruct (valid_fields _ _ _ _ _ _); [|discriminate].
  injection X as X _ _ _ _ _. unfold full_year in *.
  destruct (v0 <=? 68) eqn:C1; destruct (y <=? 68) eqn:C2; lia.
Qed.
