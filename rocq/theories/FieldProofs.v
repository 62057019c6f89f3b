(** Semi-octets, UCS-2, validity periods, timestamps: proofs. *)
From Verif Require Import Base PduModel PduSpec SeptetProofs Gsm7Proofs.
From Coq Require Import ZifyBool.
Ltac Zify.zify_post_hook ::= Z.div_mod_to_equations.

(** ** int() on hexadecimal and decimal characters *)
Definition hexchars : list Z := [48;49;50;51;52;53;54;55;56;57;65;66;67;68;69;70;97;98;99;100;101;102].
Lemma hexval_in c v : hexval c = Some v -> In c hexchars.
Proof.
  unfold hexval, hexchars. intro H.
  destruct ((48 <=? c) && (c <=? 57)) eqn:E1; [simpl; lia|].
  destruct ((65 <=? c) && (c <=? 70)) eqn:E2; [simpl; lia|].
  destruct ((97 <=? c) && (c <=? 102)) eqn:E3; [simpl; lia|discriminate].
Qed.

Lemma py_int16_2 a b x y : hexval a = Some x -> hexval b = Some y -> py_int 16 [a; b] = Ok (x * 16 + y).
Proof.
  intros Ha Hb.
  assert (forallb (fun a => forallb (fun b =>
     match hexval a, hexval b, py_int 16 [a; b] with Some x, Some y, Ok v => v =? x * 16 + y | _, _, _ => false end)
     hexchars) hexchars = true) as F by (vm_compute; reflexivity).
  rewrite forallb_forall in F. specialize (F a (hexval_in _ _ Ha)). cbv beta in F.
  rewrite forallb_forall in F. specialize (F b (hexval_in _ _ Hb)). cbv beta in F.
  rewrite Ha, Hb in F. destruct (py_int 16 [a; b]); [f_equal; lia|discriminate].
Qed.

Lemma hexval_range c v : hexval c = Some v -> 0 <= v < 16.
Proof.
  unfold hexval. intro H.
  destruct ((48 <=? c) && (c <=? 57)) eqn:E1; [injection H; lia|].
  destruct ((65 <=? c) && (c <=? 70)) eqn:E2; [injection H; lia|].
  destruct ((97 <=? c) && (c <=? 102)) eqn:E3; [injection H; lia|discriminate].
Qed.
Lemma hexval_lower v : 0 <= v < 16 -> hexval (hexdigit_lower v) = Some v.
Proof.
  intro H. unfold hexval, hexdigit_lower. destruct (Z.ltb_spec v 10);
  destruct ((48 <=? _) && _) eqn:E1; try (f_equal; lia);
  destruct ((65 <=? _) && _) eqn:E2; try (f_equal; lia);
  destruct ((97 <=? _) && _) eqn:E3; try (f_equal; lia); lia.
Qed.
Lemma hexval_upper v : 0 <= v < 16 -> hexval (hexdigit_upper v) = Some v.
Proof.
  intro H. unfold hexval, hexdigit_upper. destruct (Z.ltb_spec v 10);
  destruct ((48 <=? _) && _) eqn:E1; try (f_equal; lia);
  destruct ((65 <=? _) && _) eqn:E2; try (f_equal; lia);
  destruct ((97 <=? _) && _) eqn:E3; try (f_equal; lia); lia.
Qed.
Lemma hexval_digit c : 48 <= c <= 57 -> hexval c = Some (c - 48).
Proof. intro H. unfold hexval. replace ((48 <=? c) && (c <=? 57)) with true by lia. reflexivity. Qed.

Lemma mk_bytes_ok l : octets_ok l -> mk_bytes l = Ok l.
Proof.
  induction 1 as [|x l Hx Hl IH]; simpl; auto.
  unfold byte. replace ((0 <=? x) && (x <? 256)) with true by lia. simpl. rewrite IH. reflexivity.
Qed.
Lemma mk_bytes_inv l r : mk_bytes l = Ok r -> r = l /\ octets_ok l.
Proof.
  revert r; induction l as [|x l IH]; intros r; simpl.
  - intros [= <-]. split; auto. constructor.
  - unfold byte. destruct ((0 <=? x) && (x <? 256)) eqn:E; [|discriminate]. simpl.
    destruct (mk_bytes l) as [r'|]; [|discriminate]. intros [= <-].
    destruct (IH r' eq_refl) as [-> H]. split; auto. constructor; auto. lia.
Qed.
Lemma byte_ok x : 0 <= x < 256 -> byte x = Ok x.
Proof. intro. unfold byte. replace ((0 <=? x) && (x <? 256)) with true by lia. reflexivity. Qed.
Lemma byte_inv x y : byte x = Ok y -> y = x /\ 0 <= x < 256.
Proof. unfold byte. destruct ((0 <=? x) && (x <? 256)) eqn:E; [|discriminate]. intros [= <-]. split; auto. lia. Qed.

(** ** Semi-octets *)

(** Induction two elements at a time *)
Lemma list_ind2 {A} (P : list A -> Prop) :
  P [] -> (forall x, P [x]) -> (forall x y l, P l -> P (x :: y :: l)) -> forall l, P l.
Proof.
  intros H0 H1 H2. fix IH 1. intros [|x [|y l]]; [exact H0|exact (H1 x)|exact (H2 x y l (IH l))].
Qed.

(** nibble values of a string of hexadecimal characters *)
Definition nibs (s : str) (ns : list Z) : Prop := Forall2 (fun c v => hexval c = Some v) s ns.
Fixpoint pairs (ns : list Z) : list Z :=
  match ns with a :: b :: r => a + 16 * b :: pairs r | _ => [] end.

Lemma pairs_octets ns : Forall (fun v => 0 <= v < 16) ns -> octets_ok (pairs ns).
Proof.
  induction ns as [|a|a b ns IH] using list_ind2; intros H; simpl; try constructor.
  - inversion H as [|? ? Ha H']; inversion H'; subst. lia.
  - inversion H as [|? ? Ha H']; inversion H'; subst. apply IH; auto.
Qed.

Lemma nibs_range s ns : nibs s ns -> Forall (fun v => 0 <= v < 16) ns.
Proof. induction 1; constructor; eauto using hexval_range. Qed.

Lemma semi_pairs_ok s : forall ns, nibs s ns -> Nat.even (length s) = true -> semi_pairs s = Ok (pairs ns).
Proof.
  induction s as [|a|a b s IH] using list_ind2; intros ns H He.
  - inversion H; reflexivity.
  - discriminate.
  - inversion H as [|? va ? ns1 Ha H1]; subst. inversion H1 as [|? vb ? ns2 Hb H2]; subst.
    cbn [semi_pairs pairs]. rewrite (py_int16_2 b a vb va) by auto. cbn [bind].
    rewrite (IH ns2) by auto. cbn [bind]. do 2 f_equal. lia.
Qed.

Lemma encodeSemiOctets_even s ns : nibs s ns -> Nat.even (length s) = true ->
  encodeSemiOctets s = Ok (pairs ns).
Proof.
  intros H He. unfold encodeSemiOctets. rewrite <- Nat.negb_even, He. simpl.
  rewrite (semi_pairs_ok s ns) by auto. cbn [bind].
  apply mk_bytes_ok, pairs_octets. eapply nibs_range; eauto.
Qed.
Lemma encodeSemiOctets_odd s ns : nibs s ns -> Nat.even (length s) = false ->
  encodeSemiOctets s = Ok (pairs (ns ++ [15])).
Proof.
  intros H He. unfold encodeSemiOctets. rewrite <- Nat.negb_even, He. simpl negb. cbv iota.
  assert (nibs (s ++ [70]) (ns ++ [15])) as H' by (apply Forall2_app; auto; constructor; auto).
  rewrite (semi_pairs_ok (s ++ [70]) (ns ++ [15])); auto.
  - cbn [bind]. apply mk_bytes_ok, pairs_octets. eapply nibs_range; eauto.
  - rewrite app_length, Nat.add_1_r, Nat.even_succ, <- Nat.negb_even, He. reflexivity.
Qed.

Lemma nibs_digits d : digits_ok d -> nibs d (map (fun c => c - 48) d).
Proof. induction 1; simpl; constructor; auto using hexval_digit. Qed.

(** decoding the octets [pairs ns] *)
Definition lows (ns : list Z) : str := map hexdigit_lower ns.

(** every second nibble differs from 15 *)
Fixpoint hi_ok (ns : list Z) : Prop :=
  match ns with _ :: b :: r => b <> 15 /\ hi_ok r | _ => True end.

Lemma decode_pairs ns : Forall (fun v => 0 <= v < 16) ns -> hi_ok ns -> Nat.even (length ns) = true ->
  forall tail i n, i + len (pairs ns) = n -> 0 < len (pairs ns) ->
  decodeSemiOctets_loop (pairs ns ++ tail) (Some n) i = (lows ns, tail).
Proof.
  induction ns as [|a|a b ns IH] using list_ind2; intros Hr Hh He tail i n Hn Hp.
  - cbn [pairs] in Hp. autorewrite with len in *. lia.
  - discriminate.
  - inversion Hr as [|? ? Ha Hr1]; inversion Hr1 as [|? ? Hb Hr2]; subst.
    cbn [pairs app decodeSemiOctets_loop]. destruct Hh as [Hh1 Hh2].
    assert ((a + 16 * b) / 16 = b) as -> by lia. assert ((a + 16 * b) mod 16 = a) as -> by lia.
    replace (b =? 15) with false by lia.
    destruct ns as [|a' [|b' ns]].
    + cbn [pairs] in *. autorewrite with len in *. replace (i + 1 =? _) with true; [reflexivity|]. symmetry. apply Z.eqb_eq. lia.
    + discriminate.
    + cbn [pairs] in *. rewrite !len_cons in *. pose proof (len_nonneg (pairs ns)).
      match goal with |- context [?x =? ?y] => replace (x =? y) with false by lia end.
      rewrite (IH Hr2 Hh2); auto; try lia.
Qed.

Lemma decode_pairs_odd ns : Forall (fun v => 0 <= v < 16) ns -> hi_ok ns -> Nat.even (length ns) = false ->
  forall tail i n, match n with Some m => i + len (pairs (ns ++ [15])) <= m | None => True end ->
  decodeSemiOctets_loop (pairs (ns ++ [15]) ++ tail) n i = (lows ns, tail).
Proof.
  induction ns as [|a|a b ns IH] using list_ind2; intros Hr Hh He tail i n Hn.
  - discriminate.
  - inversion Hr as [|? ? Ha Hr1]; subst. cbn [pairs app decodeSemiOctets_loop].
    assert ((a + 16 * 15) / 16 = 15) as -> by lia. assert ((a + 16 * 15) mod 16 = a) as -> by lia.
    reflexivity.
  - inversion Hr as [|? ? Ha Hr1]; inversion Hr1 as [|? ? Hb Hr2]; subst.
    cbn [pairs app decodeSemiOctets_loop]. destruct Hh as [Hh1 Hh2].
    assert ((a + 16 * b) / 16 = b) as -> by lia. assert ((a + 16 * b) mod 16 = a) as -> by lia.
    replace (b =? 15) with false by lia.
    destruct n as [m|].
    + cbn [pairs app] in Hn. rewrite len_cons in Hn.
      assert (0 < len (pairs (ns ++ [15]))).
      { destruct ns as [|x [|y ns]]; [discriminate|cbn [app pairs]; autorewrite with len; lia|]. cbn [app pairs]. rewrite len_cons.
        pose proof (len_nonneg (pairs (ns ++ [15]))). lia. }
      replace (i + 1 =? m) with false by lia. rewrite (IH Hr2 Hh2); auto. lia.
    + rewrite (IH Hr2 Hh2); auto.
Qed.

Lemma decode_pairs_none ns : Forall (fun v => 0 <= v < 16) ns -> hi_ok ns -> Nat.even (length ns) = true ->
  forall i, decodeSemiOctets_loop (pairs ns) None i = (lows ns, []).
Proof.
  induction ns as [|a|a b ns IH] using list_ind2; intros Hr Hh He i; [reflexivity|discriminate|].
  inversion Hr as [|? ? Ha Hr1]; inversion Hr1 as [|? ? Hb Hr2]; subst.
  cbn [pairs app decodeSemiOctets_loop]. destruct Hh as [Hh1 Hh2].
  assert ((a + 16 * b) / 16 = b) as -> by lia. assert ((a + 16 * b) mod 16 = a) as -> by lia.
  replace (b =? 15) with false by lia. rewrite (IH Hr2 Hh2 He). reflexivity.
Qed.

Lemma hi_ok_small ns : Forall (fun v => 0 <= v <= 9) ns -> hi_ok ns.
Proof.
  induction ns as [|a|a b ns IH] using list_ind2; intros H; simpl; auto.
  inversion H as [|? ? Ha H']; inversion H'; subst. split; auto. lia.
Qed.
Lemma digits_nibs_small d : digits_ok d -> Forall (fun v => 0 <= v <= 9) (map (fun c => c - 48) d).
Proof. induction 1; simpl; constructor; auto; lia. Qed.
Lemma small_nibs ns : Forall (fun v => 0 <= v <= 9) ns -> Forall (fun v => 0 <= v < 16) ns.
Proof. apply Forall_impl. intros; lia. Qed.
Lemma lows_digits d : digits_ok d -> lows (map (fun c => c - 48) d) = d.
Proof.
  induction 1 as [|c d Hc Hd IH]; simpl; auto. f_equal; auto.
  unfold hexdigit_lower. replace (c - 48 <? 10) with true by lia. lia.
Qed.

Lemma pairs_length ns : Nat.even (length ns) = true -> 2 * len (pairs ns) = len ns.
Proof.
  induction ns as [|a|a b ns IH] using list_ind2; intro H; [reflexivity|discriminate|].
  cbn [pairs]. rewrite !len_cons. specialize (IH H). lia.
Qed.

Lemma even_len {A} (l : list A) : Nat.even (length l) = (len l mod 2 =? 0).
Proof.
  induction l as [|a|a b l IH] using list_ind2; auto.
  rewrite !len_cons. change (length (a :: b :: l)) with (S (S (length l))).
  rewrite Nat.even_succ_succ, IH. lia.
Qed.

(** the octets of a digit string *)
Definition semi (d : str) : list Z :=
  let ns := map (fun c => c - 48) d in
  pairs (if Nat.even (length d) then ns else ns ++ [15]).

Lemma encode_semi d : digits_ok d -> encodeSemiOctets d = Ok (semi d).
Proof.
  intro H. unfold semi. destruct (Nat.even (length d)) eqn:E.
  - apply encodeSemiOctets_even; auto. apply nibs_digits; auto.
  - apply encodeSemiOctets_odd; auto. apply nibs_digits; auto.
Qed.

Lemma semi_octets_ok d : digits_ok d -> octets_ok (semi d).
Proof.
  intro H. unfold semi. apply pairs_octets.
  destruct (Nat.even (length d)); [|apply Forall_app; split; [|constructor; [lia|constructor]]];
  apply small_nibs, digits_nibs_small; auto.
Qed.

Lemma semi_len d : 2 * len (semi d) = len d + len d mod 2.
Proof.
  unfold semi. pose proof (even_len d) as E. destruct (Nat.even (length d)) eqn:E0.
  - rewrite pairs_length by (rewrite map_length; auto). unfold len in *. rewrite map_length. lia.
  - rewrite pairs_length by (rewrite app_length, map_length, Nat.add_1_r, Nat.even_succ, <- Nat.negb_even, E0; reflexivity).
    autorewrite with len. unfold len in *. rewrite map_length. lia.
Qed.

Lemma semi_layout d : digits_ok d -> forall i, (i < length (semi d))%nat ->
  nth i (semi d) 0 = digit_or_fill d (2 * i) + 16 * digit_or_fill d (2 * i + 1).
Proof.
  intros H i. unfold semi. revert i.
  induction d as [|a|a b d IH] using list_ind2; intros i Hi.
  - cbn in Hi. lia.
  - cbn in Hi. assert (i = 0%nat) as -> by lia. cbn. reflexivity.
  - inversion H as [|? ? Ha H']; inversion H' as [|? ? Hb H'']; subst.
    assert (IH' := IH H''). clear IH.
    change (Nat.even (length (a :: b :: d))) with (Nat.even (length d)) in *.
    set (ns := map (fun c => c - 48) d) in *.
    assert ((if Nat.even (length d) then map (fun c => c - 48) (a :: b :: d) else map (fun c => c - 48) (a :: b :: d) ++ [15])
      = a - 48 :: b - 48 :: (if Nat.even (length d) then ns else ns ++ [15])) as E
      by (destruct (Nat.even (length d)); reflexivity).
    rewrite E in *. cbn [pairs] in *. destruct i as [|i].
    + reflexivity.
    + cbn [nth length] in *. rewrite IH' by lia.
      replace (2 * S i)%nat with (S (S (2 * i))) by lia. reflexivity.
Qed.

Lemma decode_semi d tail : digits_ok d -> d <> [] ->
  decodeSemiOctets (semi d ++ tail) (Some (len (semi d))) = (d, tail).
Proof.
  intros H Hne. unfold decodeSemiOctets.
  pose proof (digits_nibs_small d H) as Hs. pose proof (hi_ok_small _ Hs) as Hh.
  pose proof (small_nibs _ Hs) as Hr. pose proof (lows_digits d H) as Hl.
  assert (0 < len d) by (destruct d; [congruence|rewrite len_cons; pose proof (len_nonneg d); lia]).
  pose proof (semi_len d) as HL.
  unfold semi in *. destruct (Nat.even (length d)) eqn:E.
  - rewrite decode_pairs; auto; try (rewrite map_length; auto); try lia. congruence.
  - rewrite decode_pairs_odd; auto; try (rewrite map_length; auto); try lia. congruence.
Qed.

Lemma decode_semi_all d : digits_ok d -> decodeSemiOctets (semi d) None = (d, []).
Proof.
  intros H. unfold decodeSemiOctets.
  pose proof (digits_nibs_small d H) as Hs. pose proof (hi_ok_small _ Hs) as Hh.
  pose proof (small_nibs _ Hs) as Hr. pose proof (lows_digits d H) as Hl.
  unfold semi in *. destruct (Nat.even (length d)) eqn:E.
  - rewrite decode_pairs_none; auto; try (rewrite map_length; auto). congruence.
  - rewrite <- (app_nil_r (pairs _)), decode_pairs_odd; auto; try (rewrite map_length; auto). congruence.
Qed.

(** the decoded characters are always lower-case hexadecimal digits *)
Lemma decode_loop_hex it : octets_ok it -> forall n i,
  Forall (fun c => exists v, 0 <= v < 16 /\ c = hexdigit_lower v) (fst (decodeSemiOctets_loop it n i)).
Proof.
  induction 1 as [|o it Ho Hit IH]; intros n i; simpl; [constructor|].
  assert (0 <= o / 16 < 16) by lia. assert (0 <= o mod 16 < 16) by lia.
  assert (exists v, 0 <= v < 16 /\ hexdigit_lower (o mod 16) = hexdigit_lower v) by eauto.
  assert (exists v, 0 <= v < 16 /\ hexdigit_lower (o / 16) = hexdigit_lower v) by eauto.
  destruct (o / 16 =? 15); [simpl; repeat constructor; auto|].
  destruct n as [m|].
  - destruct (i + 1 =? m); [simpl; repeat constructor; auto|].
    specialize (IH (Some m) (i + 1)). destruct (decodeSemiOctets_loop it (Some m) (i + 1)).
    simpl in *. repeat constructor; auto.
  - specialize (IH None i). destruct (decodeSemiOctets_loop it None i). simpl in *. repeat constructor; auto.
Qed.
(** and at most [n] octets are read *)
Lemma decode_loop_rest it : forall n i s r, decodeSemiOctets_loop it n i = (s, r) ->
  exists k, r = skipn k it /\ (k <= length it)%nat /\
    match n with Some m => i < m -> i + Z.of_nat k <= m | None => True end.
Proof.
  induction it as [|o it IH]; intros n i s r; cbn [decodeSemiOctets_loop].
  - intros [= <- <-]. exists 0%nat. split; auto. split; auto. destruct n; lia || auto.
  - destruct (o / 16 =? 15).
    { intros [= <- <-]. exists 1%nat. simpl. split; auto. split; [lia|]. destruct n; auto. lia. }
    destruct n as [m|].
    + destruct (Z.eqb_spec (i + 1) m).
      * intros [= <- <-]. exists 1%nat. simpl. split; auto. split; [lia|]. lia.
      * destruct (decodeSemiOctets_loop it (Some m) (i + 1)) eqn:E. intros [= <- <-].
        destruct (IH _ _ _ _ E) as (k & -> & Hk & Hm). exists (S k). simpl. split; auto. split; lia.
    + destruct (decodeSemiOctets_loop it None i) eqn:E. intros [= <- <-].
      destruct (IH _ _ _ _ E) as (k & -> & Hk & _). exists (S k). simpl. split; auto. split; [lia|auto].
Qed.

(** ** UCS-2 *)

Lemma shiftr8 c : Z.shiftr c 8 = c / 256.
Proof. rewrite Z.shiftr_div_pow2 by lia. reflexivity. Qed.
Lemma shiftl8 c : Z.shiftl c 8 = c * 256.
Proof. rewrite Z.shiftl_mul_pow2 by lia. reflexivity. Qed.

Lemma encodeUcs2_ok t : bmp t -> encodeUcs2 t = Ok (ucs2_be t).
Proof.
  induction 1 as [|c t Hc Ht IH]; [reflexivity|]. cbn [encodeUcs2 ucs2_be].
  rewrite shiftr8, land255, !byte_ok by lia. cbn [bind]. rewrite IH. reflexivity.
Qed.
Lemma encodeUcs2_bad t : Forall (fun c => 0 <= c) t -> ~ bmp t -> encodeUcs2 t = Err ValueError.
Proof.
  induction 1 as [|c t Hc Ht IH]; intro Hn; [exfalso; apply Hn; constructor|].
  cbn [encodeUcs2]. rewrite shiftr8, land255.
  destruct (Z.ltb_spec c 65536).
  - rewrite !byte_ok by lia. cbn [bind]. rewrite IH; [reflexivity|].
    intro B. apply Hn. constructor; auto.
  - unfold byte at 1. replace ((0 <=? c / 256) && (c / 256 <? 256)) with false by lia. reflexivity.
Qed.
Lemma ucs2_len t : len (ucs2_be t) = 2 * len t.
Proof. induction t; cbn [ucs2_be]; rewrite ?len_cons; [reflexivity|lia]. Qed.
Lemma ucs2_octets t : bmp t -> octets_ok (ucs2_be t).
Proof. induction 1; cbn [ucs2_be]; constructor; [lia|constructor; auto; lia]. Qed.

Lemma decodeUcs2_stop it i n : n <= i -> decodeUcs2_loop it i n = ([], it).
Proof. intro H. destruct it; simpl; replace (i <? n) with false by lia; reflexivity. Qed.
Lemma decodeUcs2_ok t tail : bmp t -> forall i n, n = i + 2 * len t \/ (tail = [] /\ i + 2 * len t <= n) ->
  decodeUcs2_loop (ucs2_be t ++ tail) i n = (t, tail).
Proof.
  induction 1 as [|c t Hc Ht IH]; intros i n Hn; cbn [ucs2_be app].
  - destruct Hn as [->|[-> Hn]].
    + apply decodeUcs2_stop. autorewrite with len. lia.
    + simpl. destruct (i <? n); reflexivity.
  - rewrite len_cons in Hn. pose proof (len_nonneg t). cbn [decodeUcs2_loop].
    replace (i <? n) with true by lia.
    rewrite IH by (destruct Hn as [->|[-> Hn]]; [left; lia|right; split; auto; lia]).
    f_equal. f_equal. rewrite shiftl8, (lor_add _ _ 8); change (2 ^ 8) with 256; lia.
Qed.

(** ** Relative validity periods *)
Ltac td := unfold td_days, td_seconds, td_of_minutes, td_of_hours, td_of_seconds, us_per_day, us_per_s, timedelta in *.

Lemma quot_div a b : 0 <= a -> 0 < b -> Z.quot a b = a / b.
Proof. intros. apply Z.quot_div_nonneg; lia. Qed.


Lemma decode_vp_spec o : in_octet o ->
  decodeRelativeValidityPeriod o = Ok (ts23040_relative_vp o * us_per_s).
Proof.
  unfold in_octet, decodeRelativeValidityPeriod, ts23040_relative_vp. intro H. td.
  destruct (Z.leb_spec o 143); [f_equal; lia|].
  replace (144 <=? o) with true by lia. destruct (Z.leb_spec o 167); simpl; [f_equal; lia|].
  replace (168 <=? o) with true by lia. destruct (Z.leb_spec o 196); simpl; [f_equal; lia|].
  replace ((197 <=? o) && (o <=? 255)) with true by lia. f_equal; lia.
Qed.

Lemma td_total t : td_seconds t + td_days t * 24 * 3600 = t / us_per_s.
Proof. td. lia. Qed.

Lemma encode_vp_floor t : 300 * us_per_s <= t < 442 * us_per_day ->
  exists o, encodeRelativeValidityPeriod t = Ok o /\ in_octet o /\
    ts23040_relative_vp o * us_per_s <= t /\
    forall o', in_octet o' -> ts23040_relative_vp o' * us_per_s <= t ->
      ts23040_relative_vp o' <= ts23040_relative_vp o.
Proof.
  intro H. unfold encodeRelativeValidityPeriod. rewrite td_total.
  set (s := t / us_per_s). set (d := td_days t).
  assert (Hs : us_per_s * s <= t < us_per_s * s + us_per_s) by (unfold s, us_per_s; lia).
  assert (Hd : 86400 * d <= s < 86400 * d + 86400) by (unfold s, d; td; lia).
  assert (Hs3 : 300 <= s) by (unfold us_per_s in *; lia).
  assert (Hd4 : d <= 441) by (td; lia).
  assert (Heq : forall o', ts23040_relative_vp o' * us_per_s <= t <-> ts23040_relative_vp o' <= s)
    by (intro; unfold us_per_s in *; lia).
  clearbody s d.
  assert (exists o, 
   (if s <=? 43200 then Ok (s ÷ 300 - 1) else if s <=? 86400 then Ok ((s - 43200) ÷ 1800 + 143)
    else if d <=? 30 then Ok (d + 166) else if d <=? 441 then Ok (d ÷ 7 + 192) else Err ValueError) = Ok o /\
    in_octet o /\ ts23040_relative_vp o <= s /\
    forall o', in_octet o' -> ts23040_relative_vp o' <= s -> ts23040_relative_vp o' <= ts23040_relative_vp o) as (o & E & Ho & Hle & Hmax).
  { unfold in_octet, ts23040_relative_vp.
    destruct (Z.leb_spec s 43200); [|destruct (Z.leb_spec s 86400); [|destruct (Z.leb_spec d 30); [|replace (d <=? 441) with true by lia]]];
    rewrite ?quot_div by lia; eexists; (split; [reflexivity|]);
    clear H Heq Hs; (split; [lia|split; [|intros o' Ho' Hv]]);
    repeat match goal with |- context [?a <=? ?b] => destruct (Z.leb_spec a b) | H : context [?a <=? ?b] |- _ => destruct (Z.leb_spec a b) end; lia. }
  exists o. split; auto. split; auto. split; [apply Heq; auto|].
  intros o' Ho' Hv. apply Hmax; auto. apply Heq; auto.
Qed.

Lemma encode_vp_long t : 442 * us_per_day <= t -> encodeRelativeValidityPeriod t = Err ValueError.
Proof.
  intro H. unfold encodeRelativeValidityPeriod. rewrite td_total.
  assert (442 * 86400 <= t / us_per_s) by (td; lia). assert (442 <= td_days t) by (td; lia).
  set (s := t / us_per_s) in *. set (d := td_days t) in *.
  replace (s <=? 43200) with false by lia. replace (s <=? 86400) with false by lia.
  replace (d <=? 30) with false by lia. replace (d <=? 441) with false by lia. reflexivity.
Qed.

Lemma encode_vp_short t : t < 300 * us_per_s -> exists o, encodeRelativeValidityPeriod t = Ok o /\ o < 0.
Proof.
  intro H. unfold encodeRelativeValidityPeriod. rewrite td_total.
  assert (t / us_per_s < 300) by (td; lia). set (s := t / us_per_s) in *. clearbody s.
  replace (s <=? 43200) with true by lia. eexists; split; [reflexivity|].
  destruct (Z.leb_spec 0 s).
  - rewrite quot_div by lia. lia.
  - assert (s ÷ 300 <= 0); [|lia].
    replace s with (- (- s)) by lia. rewrite Z.quot_opp_l by lia.
    pose proof (Z.quot_pos (- s) 300 ltac:(lia) ltac:(lia)). lia.
Qed.

Lemma vp_strict o o' : in_octet o -> in_octet o' -> ts23040_relative_vp o = ts23040_relative_vp o' -> o = o'.
Proof.
  unfold in_octet, ts23040_relative_vp. intros H H' E.
  repeat match goal with H : context [?a <=? ?b] |- _ => destruct (Z.leb_spec a b) end; lia.
Qed.
Lemma vp_range o : in_octet o -> 300 <= ts23040_relative_vp o < 442 * 86400.
Proof.
  unfold in_octet, ts23040_relative_vp. intros H.
  repeat match goal with |- context [?a <=? ?b] => destruct (Z.leb_spec a b) end; lia.
Qed.

Lemma vp_roundtrip o : in_octet o -> exists t, decodeRelativeValidityPeriod o = Ok t /\ encodeRelativeValidityPeriod t = Ok o.
Proof.
  intro H. rewrite decode_vp_spec by auto. eexists; split; [reflexivity|].
  pose proof (vp_range o H).
  destruct (encode_vp_floor (ts23040_relative_vp o * us_per_s)) as (o' & E & Ho' & Hle & Hmax).
  { unfold us_per_day, us_per_s. lia. }
  rewrite E. f_equal. apply vp_strict; auto. specialize (Hmax o H ltac:(lia)). unfold us_per_s in *. lia.
Qed.
