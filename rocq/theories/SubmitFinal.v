(** encodeSmsSubmitPdu: the lemmas in the form of [PropertiesSubmit]. *)
From Verif Require Import Base PduModel PduSpec SmsSpec SubmitSpec SeptetProofs Gsm7Proofs FieldProofs TimeProofs AddressProofs SubmitProofs.
From Coq Require Import ZifyBool.
Ltac Zify.zify_post_hook ::= Z.div_mod_to_equations.

Lemma uses_gsm7_fun t a b : uses_gsm7 t a -> uses_gsm7 t b -> a = b.
Proof.
  assert (forall p c q, Forall encodable (p ++ c :: q) -> ~ encodable c -> False) as K.
  { intros p c q H Hc. apply Forall_app in H as [_ H]. inversion H; auto. }
  intros [[-> H]|[-> (p & c & q & -> & _ & Hc & _)]] [[-> H']|[-> (p' & c' & q' & E & _ & Hc' & _)]]; auto; exfalso; subst; eauto.
Qed.

Lemma wire_fields number text ref v smsc srr rd fl gsm7 i p w :
  part_wire number text ref v smsc srr rd fl gsm7 i p w -> v <> VOther -> fields number smsc v p w.
Proof.
  intros [Wd Wt Ws Wf Wr Wa Wp Wc [Wv [Wvo Wvn]] Wu Wl Wcc] Hv. repeat split; auto.
  destruct v as [|t|t|]; try congruence.
  - rewrite Wvn; auto.
  - cbn [submit_validity] in Wv. binv Wv o Eo. injection Wv as Wv. rewrite <- Wv. reflexivity.
  - cbn [submit_validity] in Wv. binv Wv o Eo. injection Wv as Wv. rewrite <- Wv. eapply encodeTimestamp_len; eauto.
Qed.

(** the parts, in full generality *)
Lemma submit_master number text ref v smsc srr rd fl gsm7 pdus :
  encodeSmsSubmitPdu number text ref v smsc srr rd fl = Ok pdus -> uses_gsm7 text gsm7 ->
  v <> VOther /\ len pdus = pdu_count gsm7 text /\
  forall i p, nth_error pdus i = Some p -> (i < Z.to_nat (pdu_count gsm7 text))%nat /\
      exists w, part_wire number text ref v smsc srr rd fl gsm7 i p w /\ fields number smsc v p w.
Proof.
  intros E Hg. destruct (encode_wires _ _ _ _ _ _ _ _ _ E) as (g & Hv & Hg' & HL & HN).
  rewrite (uses_gsm7_fun _ _ _ Hg' Hg) in *. split; auto. split; auto. intros i p Hi.
  apply HN in Hi as [Hi [w W]]. split; auto. exists w. split; auto. eapply wire_fields; eauto.
Qed.

Ltac apps := repeat first [rewrite <- app_assoc | progress cbn [app]].

Ltac lens := repeat first [rewrite app_length | progress cbn [length]].

(** C15 *)
Lemma single_roundtrip number text ref v smsc srr rd fl gsm7 pdus :
  encodeSmsSubmitPdu number text ref v smsc srr rd fl = Ok pdus ->
  uses_gsm7 text gsm7 -> len text <= max_chars gsm7 ->
  ~ In 27 text -> ~ In 27 number -> no_esc smsc -> validity_ok v ->
  exists p smsc' n number' dv text', pdus = [p] /\
    address_received number number' /\ text_received gsm7 0 text text' /\
    smsc_received smsc smsc' /\ validity_received v dv /\
    decodeSmsPdu (pdu_str (pdu_data p)) = Ok (mk_sms smsc' n (SmsSubmit ref (Some number') 0 dv None text')) /\
    decodeSmsPdu_bytes (pdu_data p) = decodeSmsPdu (pdu_str (pdu_data p)).
Proof.
  intros E Hg Hlen Ht Hn Hs Hv. destruct (submit_master _ _ _ _ _ _ _ _ _ _ E Hg) as (_ & HL & HN).
  unfold pdu_count in HL. replace (max_chars gsm7 <? len text) with false in HL by lia.
  destruct pdus as [|p [|p' pdus]]; try (unfold len in HL; simpl in HL; lia).
  destruct (HN 0%nat p eq_refl) as (Hi & w & W & _).
  destruct (decode_part _ _ _ _ _ _ _ _ _ _ _ _ W Hi Ht Hn Hs Hv) as (Ho & smsc' & number' & dv & text' & R1 & R2 & R3 & R4 & D).
  unfold concat_of in *. replace (max_chars gsm7 <? len text) with false in * by lia. cbn [part_text] in R4.
  exists p, smsc', (len (tpdu_octets w)), number', dv, text'. rewrite decode_hex by auto.
  split; auto. split; auto.
Qed.

(** C16 *)
Lemma parts_numbered number text ref v smsc srr rd fl gsm7 pdus :
  encodeSmsSubmitPdu number text ref v smsc srr rd fl = Ok pdus ->
  uses_gsm7 text gsm7 -> max_chars gsm7 < len text ->
  forall i p, nth_error pdus i = Some p ->
    exists w, fields number smsc v p w /\
      user_data gsm7 (concat_header ref (len pdus) (Z.of_nat i + 1)) (chunk (part_chars gsm7) i text) (s_udl w) (s_ud w) /\
    (~ In 27 text -> ~ In 27 number -> no_esc smsc -> validity_ok v ->
     exists smsc' n number' dv text',
      address_received number number' /\ text_received gsm7 1 (chunk (part_chars gsm7) i text) text' /\
      smsc_received smsc smsc' /\ validity_received v dv /\
      decodeSmsPdu (pdu_str (pdu_data p)) =
        Ok (mk_sms smsc' n (SmsSubmit ref (Some number') 0 dv
              (Some [concat_element ref (len pdus) (Z.of_nat i + 1)]) text'))).
Proof.
  intros E Hg Hlen i p Hi. destruct (submit_master _ _ _ _ _ _ _ _ _ _ E Hg) as (_ & HL & HN).
  apply HN in Hi as (Hi & w & W & F). exists w. split; auto.
  pose proof (pw_ud _ _ _ _ _ _ _ _ _ _ _ _ W) as U.
  unfold concat_of in U. replace (max_chars gsm7 <? len text) with true in U by lia. cbn [part_header part_text] in U.
  rewrite HL. split; auto. intros Ht Hn Hs Hv.
  destruct (decode_part _ _ _ _ _ _ _ _ _ _ _ _ W Hi Ht Hn Hs Hv) as (Ho & smsc' & number' & dv & text' & R1 & R2 & R3 & R4 & D).
  unfold concat_of in *. replace (max_chars gsm7 <? len text) with true in * by lia. cbn [part_text] in R4.
  rewrite decode_hex by auto.
  exists smsc', (len (tpdu_octets w)), number', dv, text'. split; auto.
Qed.

(** C17 *)
Lemma firstn_add {A} a b (l : list A) : firstn (a + b) l = firstn a l ++ firstn b (skipn a l).
Proof. revert l; induction a; intros [|x l]; simpl; auto; [destruct b; auto|]. f_equal; auto. Qed.
Lemma chunks_concat k text n : List.concat (map (fun i => chunk k i text) (seq 0 n)) = firstn (n * k) text.
Proof.
  induction n as [|n IH]; [reflexivity|].
  rewrite seq_S, map_app, concat_app, IH. cbn [map List.concat]. rewrite app_nil_r.
  replace (S n * k)%nat with (n * k + k)%nat by lia. rewrite firstn_add. reflexivity.
Qed.
Lemma firstn_all_iff {A} n (l : list A) : firstn n l = l <-> (length l <= n)%nat.
Proof.
  split; [|apply firstn_all2]. intro H. rewrite <- H, firstn_length. lia.
Qed.
Lemma Forall2_nth {A B} (R : A -> B -> Prop) (f : nat -> B) (l : list A) :
  (forall i x, nth_error l i = Some x -> R x (f i)) -> Forall2 R l (map f (seq 0 (length l))).
Proof.
  revert f. induction l as [|x l IH]; intros f H; [constructor|].
  cbn [length seq map]. constructor; [apply (H 0%nat); reflexivity|].
  rewrite <- seq_shift, map_map. apply IH. intros i y Hy. apply (H (S i)). exact Hy.
Qed.


Lemma transmitted number text ref v smsc srr rd fl gsm7 pdus :
  encodeSmsSubmitPdu number text ref v smsc srr rd fl = Ok pdus ->
  uses_gsm7 text gsm7 -> max_chars gsm7 < len text ->
  ~ In 27 text -> ~ In 27 number -> no_esc smsc -> validity_ok v ->
  let n := len text / max_chars gsm7 + 1 in
  let k := Z.of_nat (part_chars gsm7) in
  len pdus = n /\
  exists sent, Forall2 (fun p t => exists m t', decodeSmsPdu (pdu_str (pdu_data p)) = Ok m /\
                   text_received gsm7 1 t t' /\ text_of m t') pdus sent /\
    List.concat sent = firstn (Z.to_nat (n * k)) text /\
    (List.concat sent = text <-> len text <= n * k).
Proof.
  intros E Hg Hlen Ht Hn Hs Hv n k.
  destruct (submit_master _ _ _ _ _ _ _ _ _ _ E Hg) as (_ & HL & _).
  assert (HL' : len pdus = n) by (rewrite HL; unfold pdu_count; replace (max_chars gsm7 <? len text) with true by lia; reflexivity).
  split; auto.
  exists (map (fun i => chunk (part_chars gsm7) i text) (seq 0 (length pdus))).
  assert (C : List.concat (map (fun i => chunk (part_chars gsm7) i text) (seq 0 (length pdus))) = firstn (Z.to_nat (n * k)) text).
  { rewrite chunks_concat. f_equal. unfold len in HL'. subst k. rewrite <- HL'. lia. }
  split; [|split; [exact C|]].
  - apply Forall2_nth. intros i p Hi.
    destruct (parts_numbered _ _ _ _ _ _ _ _ _ _ E Hg Hlen i p Hi) as (w & _ & _ & P).
    destruct (P Ht Hn Hs Hv) as (smsc' & n' & number' & dv & text' & _ & R & _ & _ & D).
    eexists _, _. split; [exact D|]. split; [exact R|reflexivity].
  - rewrite C, firstn_all_iff.
    assert (0 <= n * k) as Hnk.
    { pose proof (len_nonneg text). subst n k. destruct gsm7; unfold max_chars, part_chars in *;
        change (Z.of_nat 153) with 153; change (Z.of_nat 67) with 67; lia. }
    unfold len in *. clearbody n k. split; intro H; lia.
Qed.

(** the arithmetic of truncation *)
Lemma truncation_gsm7 l : 160 < l ->
  (l <= 306 -> l <= (l / 160 + 1) * 153) /\ (307 <= l < 320 -> (l / 160 + 1) * 153 < l) /\
  (3520 <= l -> (l / 160 + 1) * 153 < l).
Proof. lia. Qed.
Lemma truncation_ucs2 l : 70 < l ->
  (l <= 134 -> l <= (l / 70 + 1) * 67) /\ (135 <= l < 140 -> (l / 70 + 1) * 67 < l) /\
  (1610 <= l -> (l / 70 + 1) * 67 < l).
Proof. lia. Qed.
Lemma truncation_final l (gsm7 : bool) : max_chars gsm7 < l ->
  let sent := (l / max_chars gsm7 + 1) * Z.of_nat (part_chars gsm7) in
  (l < (if gsm7 then 307 else 135) -> l <= sent) /\
  (l = (if gsm7 then 307 else 135) -> sent < l) /\
  ((if gsm7 then 3520 else 1610) <= l -> sent < l).
Proof. destruct gsm7; unfold max_chars, part_chars; cbv zeta; intro; change (Z.of_nat 153) with 153; change (Z.of_nat 67) with 67; lia. Qed.

(** C18 *)
Lemma weight_le t n : text_weight t n -> len t <= n /\ n <= 2 * len t.
Proof.
  induction 1 as [|c w t n Hw Ht IH]; [rewrite len_nil; lia|]. rewrite len_cons.
  destruct Hw as [[_ ->]|[_ ->]]; lia.
Qed.
Lemma weight_basic t n : text_weight t n -> Forall lib_basic t -> n = len t.
Proof.
  induction 1 as [|c w t n Hw Ht IH]; intro Hb; [reflexivity|]. inversion Hb; subst. rewrite len_cons.
  destruct Hw as [[_ ->]|[He ->]]; [rewrite IH by auto; lia|]. exfalso. eapply basic_ext_disjoint; eauto.
Qed.
Lemma chunk_len_le text i k : len (chunk k i text) <= Z.of_nat k.
Proof. apply slice_length_le. Qed.


Lemma ud_ucs2_inv hdr t udl ud : user_data false hdr t udl ud -> bmp t /\ udl = len hdr + 2 * len t /\ ud = hdr ++ ucs2_be t.
Proof. intro H. inversion H; subst; auto. Qed.
Lemma ud_gsm7_inv hdr t udl ud : user_data true hdr t udl ud -> exists s v, lib_text t s /\
  septet_stream (fill_bits (len hdr)) s v /\ udl = (8 * len hdr + fill_bits (len hdr)) / 7 + len s /\ ud = hdr ++ v.
Proof. intro H. inversion H; subst. eexists _, _. repeat split; eauto; apply H1. Qed.

Lemma octet_limit number text ref v smsc srr rd fl gsm7 pdus :
  encodeSmsSubmitPdu number text ref v smsc srr rd fl = Ok pdus -> uses_gsm7 text gsm7 ->
  forall i p, nth_error pdus i = Some p ->
    exists w, fields number smsc v p w /\
     (gsm7 = false -> len (s_ud w) <= 140 /\ s_udl w <= 140) /\
     (gsm7 = true -> exists n, text_weight (part_of gsm7 i text) n /\
        (len (s_ud w) <= 140 <-> n <= (if 160 <? len text then 153 else 160)) /\
        (s_udl w <= 160 <-> n <= (if 160 <? len text then 153 else 160))) /\
     (Forall lib_basic text -> len (s_ud w) <= 140 /\ s_udl w <= 160).
Proof.
  intros E Hg i p Hi. destruct (submit_master _ _ _ _ _ _ _ _ _ _ E Hg) as (_ & HL & HN).
  apply HN in Hi as (Hi & w & W & F). exists w. split; auto.
  pose proof (pw_ud _ _ _ _ _ _ _ _ _ _ _ _ W) as U.
  assert (K1 : gsm7 = false -> len (s_ud w) <= 140 /\ s_udl w <= 140).
  { intros ->. apply ud_ucs2_inv in U as (_ & -> & ->). rewrite len_app, ucs2_len.
    unfold concat_of, part_text, part_header in *. unfold max_chars in *.
    destruct (70 <? len text) eqn:C.
    - change (len (concat_header _ _ _)) with 6. pose proof (chunk_len_le text i 67). unfold part_chars. lia.
    - change (len (@nil Z)) with 0. lia. }
  assert (K2 : gsm7 = true -> exists n, text_weight (part_of gsm7 i text) n /\
        (len (s_ud w) <= 140 <-> n <= (if 160 <? len text then 153 else 160)) /\
        (s_udl w <= 160 <-> n <= (if 160 <? len text then 153 else 160))).
  { intros ->. apply ud_gsm7_inv in U as (s & o & Hl & Hst & -> & ->). rewrite len_app.
    destruct (lib_text_weight _ _ Hl) as (Hw & Hs & _). exists (len s).
    unfold part_of, concat_of, part_text, part_header in *. unfold max_chars in *.
    destruct (160 <? len text) eqn:C; (split; [exact Hw|]).
    - change (len (concat_header _ _ _)) with 6 in *. change (fill_bits 6) with 1 in *.
      change ((8 * 6 + 1) / 7) with 7. destruct Hst as (_ & HL' & _). lia.
    - change (len (@nil Z)) with 0 in *. change (fill_bits 0) with 0 in *.
      change ((8 * 0 + 0) / 7) with 0. destruct Hst as (_ & HL' & _). lia. }
  split; auto. split; auto. intro Hb.
  destruct gsm7; [|destruct (K1 eq_refl); lia].
  destruct (K2 eq_refl) as (n & Hw & H1 & H2). apply weight_basic in Hw.
  2: { unfold part_of. destruct (max_chars true <? len text); auto. apply Forall_forall. intros x Hx. apply slice_in in Hx.
       rewrite Forall_forall in Hb. auto. }
  unfold part_of, max_chars in Hw. destruct (160 <? len text) eqn:C.
  - pose proof (chunk_len_le text i 153). unfold part_chars in Hw. lia.
  - lia.
Qed.

(** C19 *)
Lemma alphabet_choice number text ref v smsc srr rd fl pdus :
  encodeSmsSubmitPdu number text ref v smsc srr rd fl = Ok pdus ->
  exists gsm7, uses_gsm7 text gsm7 /\ Forall (fun p => exists w, fields number smsc v p w /\ s_dcs w = data_coding gsm7 fl) pdus.
Proof.
  intro E. destruct (encode_wires _ _ _ _ _ _ _ _ _ E) as (g & Hv & Hg & HL & HN). exists g. split; auto.
  apply Forall_forall. intros p Hp. apply In_nth_error in Hp as [i Hi]. apply HN in Hi as [Hi [w W]].
  exists w. split; [eapply wire_fields; eauto|]. apply (pw_dcs _ _ _ _ _ _ _ _ _ _ _ _ W).
Qed.
Lemma alphabet_typeerror number text ref v smsc srr rd fl p q :
  text = p ++ 255 :: q -> Forall encodable p -> validity_encodes v -> (forall t, v = VAbsolute t -> py_datetime t) ->
  encodeSmsSubmitPdu number text ref v smsc srr rd fl = Err TypeError.
Proof.
  intros -> Hp Hv Hpy. unfold encodeSmsSubmitPdu. cbv zeta.
  assert (exists b o, submit_validity v = Ok (b, o)) as (b & o & ->).
  { destruct v as [|t|t|]; cbn [validity_encodes submit_validity] in *.
    - eauto.
    - destruct (encode_vp_floor t Hv) as (o & -> & _). cbn [bind]. eauto.
    - destruct (dt_utcoff t) as [off|] eqn:Eu; [|congruence].
      destruct (encodeTimestamp_total t off (Hpy t eq_refl) Eu) as [o ->]. cbn [bind]. eauto.
    - tauto. }
  cbn [bind]. unfold submit_alphabet. rewrite encode_first_bad; auto.
  intros [H|H]; [apply not_basic_255 in H|apply not_ext_255 in H]; auto.
Qed.



Lemma part_flash number text ref smsc fo alpha vpo concat i :
  alpha = 0 \/ alpha = 8 ->
  match submit_part number text ref smsc fo alpha vpo false concat i with
  | Err e => submit_part number text ref smsc fo alpha vpo true concat i = Err e
  | Ok p => exists a b, pdu_data p = a ++ alpha :: b /\
      (exists s ad, smsc_enc smsc s /\ encodeAddressField number false = Ok ad /\ a = s ++ [fo; ref] ++ ad ++ [0]) /\
      submit_part number text ref smsc fo alpha vpo true concat i = Ok (mk_pdu (a ++ (alpha + 16) :: b) (pdu_tpduLength p))
  end.
Proof.
  intro Halpha. unfold submit_part. cbv zeta.
  destruct (match smsc with Some (c :: s) => encodeAddressField (c :: s) true | _ => Ok [0] end) as [so|] eqn:Es; [|reflexivity].
  cbn [bind]. destruct (match concat with
    | Some parts => let* h := concat_encode ref parts (Z.of_nat i + 1) in Ok (h, if alpha =? 0 then slice text i 153 else slice text i 67)
    | None => Ok ([], text) end) as [[udh pt]|]; [|reflexivity].
  cbn [bind]. destruct (byte ref) as [r|] eqn:Er; [|reflexivity]. cbn [bind]. apply byte_inv in Er as [-> Er].
  destruct (encodeAddressField number false) as [ao|] eqn:Ea; [|reflexivity]. cbn [bind].
  destruct (match vpo with Some o => mk_bytes o | None => Ok [] end) as [vp|]; [|reflexivity]. cbn [bind].
  match goal with |- context [bind ?X _] => destruct X as [[ud udl]|]; [|reflexivity] end. cbn [bind].
  match goal with |- context [bind ?X _] => destruct X as [tl|]; [|reflexivity] end. cbn [bind].
  cbn [negb pdu_data pdu_tpduLength].
  exists (so ++ [fo; ref] ++ ao ++ [0]), (vp ++ tl). split.
  - apps; reflexivity.
  - split.
    + exists so, ao. split; [|auto]. unfold smsc_enc. destruct smsc as [[|c s]|]; auto; injection Es as <-; auto.
    + f_equal. assert ((if alpha =? 0 then 16 else 24) = alpha + 16) as -> by (destruct Halpha as [-> | ->]; reflexivity).
      f_equal.
      * apps; reflexivity.
      * lens; lia.
Qed.

Lemma map_res_rel {A B} (R : B -> B -> Prop) (f g : A -> res B) l :
  (forall x, In x l -> match f x with Err e => g x = Err e | Ok y => exists z, g x = Ok z /\ R y z end) ->
  match map_res f l with Err e => map_res g l = Err e | Ok ys => exists zs, map_res g l = Ok zs /\ Forall2 R ys zs end.
Proof.
  induction l as [|x l IH]; intro H; cbn [map_res]; [exists []; split; auto|].
  pose proof (H x (or_introl eq_refl)) as Hx. destruct (f x) as [y|e]; cbn [bind].
  - destruct Hx as (z & -> & Hr). cbn [bind]. specialize (IH (fun a h => H a (or_intror h))).
    destruct (map_res f l) as [ys|e]; cbn [bind].
    + destruct IH as (zs & -> & Hrs). exists (z :: zs). split; auto.
    + rewrite IH. reflexivity.
  - rewrite Hx. reflexivity.
Qed.

Lemma app_inv_len {A} (a b c d : list A) : a ++ b = c ++ d -> length a = length c -> a = c /\ b = d.
Proof.
  revert c; induction a as [|x a IH]; intros [|y c] E L; try discriminate; auto.
  injection E as -> E. injection L as L. destruct (IH c E L) as [-> ->]. auto.
Qed.

Lemma flash_only number text ref v smsc srr rd :
  match encodeSmsSubmitPdu number text ref v smsc srr rd false with
  | Err e => encodeSmsSubmitPdu number text ref v smsc srr rd true = Err e
  | Ok pdus => exists pdus', encodeSmsSubmitPdu number text ref v smsc srr rd true = Ok pdus' /\
                 Forall2 (flash_pair number smsc v) pdus pdus'
  end.
Proof.
  assert (M : match encodeSmsSubmitPdu number text ref v smsc srr rd false with
  | Err e => encodeSmsSubmitPdu number text ref v smsc srr rd true = Err e
  | Ok pdus => exists pdus', encodeSmsSubmitPdu number text ref v smsc srr rd true = Ok pdus' /\
                 Forall2 (fun p p' => exists a b alpha fo, pdu_data p = a ++ alpha :: b /\
      (exists s ad, smsc_enc smsc s /\ encodeAddressField number false = Ok ad /\ a = s ++ [fo; ref] ++ ad ++ [0]) /\
      p' = mk_pdu (a ++ (alpha + 16) :: b) (pdu_tpduLength p)) pdus pdus'
  end).
  { unfold encodeSmsSubmitPdu. cbv zeta. destruct (submit_validity v) as [[bits vpo]|]; cbn [bind]; [|reflexivity].
    destruct (alphabet_spec text) as [(He & E & _)|(p & c & q & -> & Hp & Hc & E)]; rewrite E; [|destruct (c =? 255); [reflexivity|]];
    cbn [bind]; match goal with |- context [if ?c then (Some _, _, _) else _] => destruct c end;
    apply map_res_rel; intros i _;
    match goal with |- match submit_part ?a ?b ?c ?d ?e ?f ?g false ?h ?i with _ => _ end => 
      pose proof (part_flash a b c d e f g h i) as PF; destruct (submit_part a b c d e f g false h i) end;
    first [exact (PF ltac:(auto))
          |destruct (PF ltac:(auto)) as (x & y & H1 & H2 & H3); rewrite H3; eexists; (split; [reflexivity|]);
           eexists x, y, _, _; (split; [exact H1|]); (split; [exact H2|reflexivity])]. }
  destruct (encodeSmsSubmitPdu number text ref v smsc srr rd false) as [pdus|] eqn:E; auto.
  destruct M as (pdus' & E' & F). exists pdus'. split; auto.
  destruct (encode_wires _ _ _ _ _ _ _ _ _ E) as (g & Hv & Hg & HL & HN).
  assert (forall p, In p pdus -> exists w, fields number smsc v p w /\ s_pid w = 0) as Hw.
  { intros p Hp. apply In_nth_error in Hp as [i Hi]. apply HN in Hi as [Hi [w W]].
    exists w. split; [eapply wire_fields; eauto|apply (pw_pid _ _ _ _ _ _ _ _ _ _ _ _ W)]. }
  clear HN HL E E'. induction F as [|p p' l l' Hpp F IH]; constructor.
  - destruct (Hw p (or_introl eq_refl)) as (w & Fw & Hpid).
    destruct Hpp as (a & b & alpha & fo & H1 & (s & ad & Hs & Had & Ha) & ->). split; [reflexivity|].
    exists w. split; auto. destruct Fw as (D & Fs & Fa & _). rewrite D in H1.
    assert (s = s_smsc w) by (unfold smsc_enc in *; destruct smsc as [[|]|]; congruence). subst s.
    assert (ad = s_dest w) by congruence. subst ad.
    unfold submit_octets, tpdu_octets in H1. 
    replace (s_smsc w ++ [s_first w; s_ref w] ++ s_dest w ++ [s_pid w; s_dcs w] ++ s_vp w ++ [s_udl w] ++ s_ud w)
      with ((s_smsc w ++ [s_first w; s_ref w] ++ s_dest w ++ [s_pid w]) ++ (s_dcs w :: s_vp w ++ [s_udl w] ++ s_ud w)) in H1
      by (apps; reflexivity).
    apply app_inv_len in H1 as [H1 H2]; [|subst a; lens; lia].
    injection H2 as <- <-. rewrite <- H1. cbn [pdu_data]. unfold submit_octets, tpdu_octets, with_flash.
    cbn [s_smsc s_first s_ref s_dest s_pid s_dcs s_vp s_udl s_ud].
    apps; reflexivity.
  - apply IH. intros q Hq. apply Hw. right; auto.
Qed.

(** C20 *)
Lemma tpdu_length number text ref v smsc srr rd fl pdus :
  encodeSmsSubmitPdu number text ref v smsc srr rd fl = Ok pdus ->
  Forall (fun p => exists w, fields number smsc v p w /\
    pdu_tpduLength p = len (tpdu_octets w) + (len (s_smsc w) - 1)) pdus.
Proof.
  intro E. destruct (encode_wires _ _ _ _ _ _ _ _ _ E) as (g & Hv & Hg & HL & HN).
  apply Forall_forall. intros p Hp. apply In_nth_error in Hp as [i Hi]. apply HN in Hi as [Hi [w W]].
  exists w. split; [eapply wire_fields; eauto|]. rewrite (pw_tlen _ _ _ _ _ _ _ _ _ _ _ _ W).
  unfold submit_octets. rewrite len_app. lia.
Qed.

(** C21 *)
Lemma first_octet_flags number text ref v smsc srr rd fl gsm7 pdus :
  encodeSmsSubmitPdu number text ref v smsc srr rd fl = Ok pdus -> uses_gsm7 text gsm7 ->
  Forall (fun p => exists w, fields number smsc v p w /\
    s_first w = submit_first rd (vpf_of v) srr (max_chars gsm7 <? len text) /\ s_ref w = ref /\ s_pid w = 0) pdus.
Proof.
  intros E Hg. destruct (submit_master _ _ _ _ _ _ _ _ _ _ E Hg) as (_ & HL & HN).
  apply Forall_forall. intros p Hp. apply In_nth_error in Hp as [i Hi]. apply HN in Hi as (Hi & w & W & F).
  exists w. split; auto. destruct W as [Wd Wt Ws Wf [Wr Wr'] Wa Wp Wc Wv Wu Wl Wcc]. auto.
Qed.

(** the division into fields is unique *)
Lemma fields_unique number smsc v p w w' : fields number smsc v p w -> fields number smsc v p w' -> w = w'.
Proof.
  intros (D & S & A & L) (D' & S' & A' & L').
  assert (s_smsc w = s_smsc w') as ES.
  { unfold smsc_enc in *. destruct smsc as [[|c s]|]; congruence. }
  assert (s_dest w = s_dest w') as EA by congruence.
  rewrite D in D'. destruct w as [f1 f2 f3 f4 f5 f6 f7 f8 f9], w' as [g1 g2 g3 g4 g5 g6 g7 g8 g9].
  unfold submit_octets, tpdu_octets in D'. cbn [s_smsc s_first s_ref s_dest s_pid s_dcs s_vp s_udl s_ud] in *. subst g1 g4.
  apply app_inv_head in D'. cbn [app] in D'. injection D' as -> -> D'.
  apply app_inv_head in D'. injection D' as -> -> D'.
  apply app_inv_len in D' as [-> D']; [|unfold len in *; lia]. injection D' as -> ->. reflexivity.
Qed.

(** A relative validity period under five minutes is not representable. *)
Lemma vp_short t : t < 300 * us_per_s -> exists o, encodeRelativeValidityPeriod t = Ok o /\ o < 0.
Proof.
  intro H. unfold encodeRelativeValidityPeriod.
  assert (E : td_seconds t + td_days t * 24 * 3600 = t / us_per_s).
  { unfold td_seconds, td_days, us_per_day, us_per_s in *. Z.to_euclidean_division_equations. lia. }
  rewrite E.
  assert (L : t / us_per_s < 300).
  { apply Z.div_lt_upper_bound; unfold us_per_s in *; lia. }
  destruct (t / us_per_s <=? 43200) eqn:C; [|apply Z.leb_gt in C; lia].
  eexists; split; [reflexivity|]. Z.to_euclidean_division_equations. lia.
Qed.

Lemma short_part number text ref smsc fo fo' alpha fl concat i p o :
  o < 0 ->
  submit_part number text ref smsc fo alpha None fl concat i = Ok p ->
  submit_part number text ref smsc fo' alpha (Some [o]) fl concat i = Err ValueError.
Proof.
  intros Ho. unfold submit_part.
  destruct (match smsc with Some (c :: s) => encodeAddressField (c :: s) true | _ => Ok [0] end) as [a|e]; cbn [bind]; [|discriminate].
  match goal with |- (let* _ := ?x in _) = _ -> _ => destruct x as [[u pt]|e] end; cbn [bind]; [|discriminate].
  destruct (byte ref); cbn [bind]; [|discriminate].
  destruct (encodeAddressField number false); cbn [bind]; [|discriminate].
  intros _. cbn [mk_bytes]. unfold byte at 1.
  destruct (0 <=? o) eqn:C; [apply Z.leb_le in C; lia|]. reflexivity.
Qed.

Lemma submit_short number text ref t smsc srr rd fl pdus : t < 300 * us_per_s ->
  encodeSmsSubmitPdu number text ref VNone smsc srr rd fl = Ok pdus ->
  encodeSmsSubmitPdu number text ref (VRelative t) smsc srr rd fl = Err ValueError.
Proof.
  intros Ht. destruct (vp_short t Ht) as (o & E & Ho). unfold encodeSmsSubmitPdu.
  cbn [submit_validity bind]. rewrite E. cbn [bind].
  destruct (submit_alphabet text) as [alpha|e]; cbn [bind]; [|discriminate].
  destruct (MAX_MESSAGE_LENGTH alpha <? Z.of_nat (length text)) eqn:C.
  - set (n := Z.of_nat (length text) / MAX_MESSAGE_LENGTH alpha + 1).
    assert (P : 0 < MAX_MESSAGE_LENGTH alpha) by (unfold MAX_MESSAGE_LENGTH; destruct (alpha =? 0), (alpha =? 4); reflexivity).
    assert (N : 0 < n) by (unfold n; assert (0 <= Z.of_nat (length text) / MAX_MESSAGE_LENGTH alpha) by (apply Z.div_pos; [apply Nat2Z.is_nonneg|exact P]); lia).
    destruct (Z.to_nat n) eqn:K; [lia|]. cbn [seq map_res].
    match goal with |- (let* y := ?s in _) = _ -> _ => destruct s as [p|e] eqn:S end; cbn [bind]; [|discriminate].
    intros _. erewrite short_part; [reflexivity|exact Ho|exact S].
  - change (Z.to_nat 1) with 1%nat. cbn [seq map_res].
    match goal with |- (let* y := ?s in _) = _ -> _ => destruct s as [p|e] eqn:S end; cbn [bind]; [|discriminate].
    intros _. erewrite short_part; [reflexivity|exact Ho|exact S].
Qed.
