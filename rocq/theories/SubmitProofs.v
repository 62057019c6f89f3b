(** Proofs about encodeSmsSubmitPdu and the decoding of its output. *)
From Verif Require Import Base PduModel PduSpec SmsSpec SubmitSpec SeptetProofs Gsm7Proofs FieldProofs TimeProofs AddressProofs.
From Coq Require Import ZifyBool.
Ltac Zify.zify_post_hook ::= Z.div_mod_to_equations.

Lemma bind_ok {A B} (x : res A) (f : A -> res B) b : bind x f = Ok b -> exists a, x = Ok a /\ f a = Ok b.
Proof. destruct x; simpl; [eauto|discriminate]. Qed.
Ltac binv H x E := apply bind_ok in H as (x & E & H).

(** ** The alphabet *)
Lemma encode_lib_char c s : encodeGsm7 [c] false = Ok s -> lib_septets c s.
Proof.
  intro E. destruct (Z.eq_dec c 0x60) as [->|H1]; [injection E as <-; apply lib_grave|].
  destruct (Z.eq_dec c 0x1B) as [->|H2]; [injection E as <-; apply lib_esc|].
  assert (std_text [c] s) as H.
  { apply encode_std_text; auto; simpl; intuition congruence. }
  inversion H as [|? s' ? r Hc Hr]; subst. inversion Hr; subst. rewrite app_nil_r in *.
  constructor; auto; intros ->; discriminate E.
Qed.
Lemma encode_lib t : forall s, encodeGsm7 t false = Ok s -> lib_text t s.
Proof.
  induction t as [|c t IH]; intros s E; [injection E as <-; constructor|].
  change (c :: t) with ([c] ++ t) in E. rewrite encodeGsm7_app in E.
  binv E x Ex. binv E y Ey. injection E as <-. constructor; auto. apply encode_lib_char; auto.
Qed.
Lemma lib_char_encode c s : lib_septets c s -> encodeGsm7 [c] false = Ok s.
Proof.
  destruct 1 as [c s H H1 H2| |]; try reflexivity.
  replace s with (s ++ []) by apply app_nil_r.
  apply std_text_encode; [constructor; auto; constructor| |]; simpl; intuition congruence.
Qed.
Lemma lib_encode t s : lib_text t s -> encodeGsm7 t false = Ok s.
Proof.
  induction 1 as [|c s t r Hc Ht IH]; [reflexivity|].
  change (c :: t) with ([c] ++ t). rewrite encodeGsm7_app, (lib_char_encode _ _ Hc). cbn [bind]. rewrite IH. reflexivity.
Qed.
Lemma lib_text_weight t s : lib_text t s -> text_weight t (len s) /\ septets_ok s /\ Forall encodable t.
Proof.
  intro H. apply lib_encode in H. pose proof (encode_ok_inv _ _ H) as He.
  destruct (encode_ok t He false) as (r & E & Hs & Hw). rewrite H in E. injection E as <-. auto.
Qed.

(** ** Alphabet choice *)
Lemma encodable_dec c : {encodable c} + {~ encodable c}.
Proof.
  destruct (classify c) eqn:E.
  - left. left. apply (classify_basic _ _ E).
  - left. right. apply (classify_ext _ _ E).
  - right. apply classify_bad in E. unfold encodable. tauto.
  - right. apply classify_type in E. subst. intros [H|H]; [apply not_basic_255 in H|apply not_ext_255 in H]; auto.
Qed.
Lemma encodable_split t : Forall encodable t \/
  exists p c q, t = p ++ c :: q /\ Forall encodable p /\ ~ encodable c.
Proof.
  induction t as [|c t IH]; [left; constructor|].
  destruct (encodable_dec c) as [Hc|Hc].
  - destruct IH as [H|(p & x & q & -> & Hp & Hx)]; [left; constructor; auto|].
    right. exists (c :: p), x, q. auto.
  - right. exists [], c, t. auto.
Qed.
Lemma alphabet_spec t :
  (Forall encodable t /\ submit_alphabet t = Ok 0 /\ exists s, encodeGsm7 t false = Ok s) \/
  (exists p c q, t = p ++ c :: q /\ Forall encodable p /\ ~ encodable c /\
     submit_alphabet t = if c =? 255 then Err TypeError else Ok 8).
Proof.
  unfold submit_alphabet. destruct (encodable_split t) as [H|(p & c & q & -> & Hp & Hc)].
  - left. destruct (encode_ok t H false) as (s & E & _). rewrite E. eauto.
  - right. exists p, c, q. split; auto. split; auto. split; auto.
    rewrite encode_first_bad by auto. destruct (c =? 255); reflexivity.
Qed.

(** ** Inversion of one part *)
Definition part_text (gsm7 : bool) (concat : option Z) (text : str) (i : nat) : str :=
  match concat with None => text | Some _ => chunk (part_chars gsm7) i text end.
Definition part_header (ref : Z) (concat : option Z) (i : nat) : list Z :=
  match concat with None => [] | Some n => concat_header ref n (Z.of_nat i + 1) end.

Lemma encodeUcs2_inv t : forall o, encodeUcs2 t = Ok o -> bmp t /\ o = ucs2_be t.
Proof.
  intros o H. assert (bmp t) as B.
  { revert o H. induction t as [|c t IH]; intros o H; [constructor|]. cbn [encodeUcs2] in H.
    binv H x Ex. binv H y Ey. binv H r Er. apply byte_inv in Ex as [_ Ex]. rewrite shiftr8 in Ex.
    constructor; [lia|]. eapply IH; eauto. }
  split; auto. rewrite encodeUcs2_ok in H by auto. congruence.
Qed.

Lemma mk_bytes_vp (vpo : option (list Z)) x :
  match vpo with Some o => mk_bytes o | None => Ok [] end = Ok x ->
  x = match vpo with Some o => o | None => [] end /\ octets_ok x.
Proof.
  destruct vpo; intro H; [apply mk_bytes_inv in H as [-> H]; auto|]. injection H as <-. split; auto. constructor.
Qed.

Definition gsm7_of (alpha : Z) : bool := alpha =? 0.

Lemma submit_part_inv number text ref smsc fo alpha vpo fl concat i p :
  alpha = 0 \/ alpha = 8 -> 0 <= fo < 256 ->
  submit_part number text ref smsc fo alpha vpo fl concat i = Ok p ->
  exists w, pdu_data p = submit_octets w /\ pdu_tpduLength p = len (submit_octets w) - 1 /\
    smsc_enc smsc (s_smsc w) /\ s_first w = fo /\ s_ref w = ref /\ 0 <= ref < 256 /\
    encodeAddressField number false = Ok (s_dest w) /\ s_pid w = 0 /\
    s_dcs w = data_coding (gsm7_of alpha) fl /\
    s_vp w = match vpo with Some o => o | None => [] end /\ octets_ok (s_vp w) /\
    user_data (gsm7_of alpha) (part_header ref concat i) (part_text (gsm7_of alpha) concat text i) (s_udl w) (s_ud w) /\
    0 <= s_udl w < 256 /\
    match concat with None => part_text (gsm7_of alpha) concat text i <> [] \/ alpha = 8
                    | Some n => 0 <= n < 256 /\ Z.of_nat i + 1 < 256 end.
Proof.
  intros Halpha Hfo H. unfold submit_part in H. cbv zeta in H.
  binv H smscf Hsm. binv H ut Hut. destruct ut as [udh ptext].
  binv H r Hr. apply byte_inv in Hr as [-> Hr].
  binv H addr Ha. binv H vp Hvp. apply mk_bytes_vp in Hvp as [Hvp Hvo].
  binv H uu Huu. destruct uu as [ud udl]. binv H udt Htl.
  injection H as <-. cbn [pdu_data pdu_tpduLength].
  assert (Hs : smsc_enc smsc smscf).
  { unfold smsc_enc. destruct smsc as [[|c s]|]; auto; injection Hsm as <-; auto. }
  assert (Hud : udh = match concat with None => [] | Some n => [0; 3; ref; n; Z.of_nat i + 1] end /\
                ptext = part_text (gsm7_of alpha) concat text i /\
                match concat with None => True | Some n => 0 <= n < 256 /\ Z.of_nat i + 1 < 256 end).
  { destruct concat as [n|].
    - binv Hut h Hh. injection Hut as <- <-. unfold concat_encode in Hh.
      replace (255 <? ref) with false in Hh by lia. unfold ie_encode_raw in Hh.
      apply mk_bytes_inv in Hh as [-> Hh]. split; auto. split.
      + unfold part_text, gsm7_of. destruct (alpha =? 0); reflexivity.
      + inversion Hh as [|? ? _ Hh1]; inversion Hh1 as [|? ? _ Hh2]; inversion Hh2 as [|? ? _ Hh3];
          inversion Hh3 as [|? ? Hn Hh4]; inversion Hh4; subst. lia.
    - injection Hut as <- <-. auto. }
  destruct Hud as (Eudh & Ept & Hc). clear Hut Hsm. rewrite <- Ept in *.
  set (dcs := if negb fl then alpha else if alpha =? 0 then 16 else 24) in *.
  assert (Hd : dcs = data_coding (gsm7_of alpha) fl)
    by (subst dcs; destruct Halpha as [-> | ->], fl; reflexivity).
  clearbody dcs.
  assert (Hfin : forall w_udl w_ud, udt = w_udl :: w_ud ->
     user_data (gsm7_of alpha) (part_header ref concat i) ptext w_udl w_ud ->
     0 <= w_udl < 256 -> (concat = None -> ptext <> [] \/ alpha = 8) ->
     exists w, smscf ++ [fo; ref] ++ addr ++ [0; dcs] ++ vp ++ udt = submit_octets w /\
       len (smscf ++ [fo; ref] ++ addr ++ [0; dcs] ++ vp ++ udt) - 1 = len (submit_octets w) - 1 /\
    smsc_enc smsc (s_smsc w) /\ s_first w = fo /\ s_ref w = ref /\ 0 <= ref < 256 /\
    encodeAddressField number false = Ok (s_dest w) /\ s_pid w = 0 /\
    s_dcs w = data_coding (gsm7_of alpha) fl /\
    s_vp w = match vpo with Some o => o | None => [] end /\ octets_ok (s_vp w) /\
    user_data (gsm7_of alpha) (part_header ref concat i) ptext (s_udl w) (s_ud w) /\
    0 <= s_udl w < 256 /\
    match concat with None => ptext <> [] \/ alpha = 8
                    | Some n => 0 <= n < 256 /\ Z.of_nat i + 1 < 256 end).
  { intros w_udl w_ud -> Hu Hb Hx. exists (mk_submit smscf fo ref addr 0 dcs vp w_udl w_ud).
    unfold submit_octets, tpdu_octets. cbn [s_smsc s_first s_ref s_dest s_pid s_dcs s_vp s_udl s_ud].
    split; [reflexivity|]. split; [reflexivity|].
    do 11 (split; auto). destruct concat; auto. }
  change (Z.of_nat (length (smscf ++ [fo; ref] ++ addr ++ [0; dcs] ++ vp ++ udt)))
    with (len (smscf ++ [fo; ref] ++ addr ++ [0; dcs] ++ vp ++ udt)).
  destruct concat as [n|].
  - (* concatenated *)
    subst udh. change (Z.of_nat (length [0; 3; ref; n; Z.of_nat i + 1])) with 5 in *.
    change (0 <? 5) with true in *. cbv iota in Htl, Huu.
    binv Htl u Hu. apply byte_inv in Hu as [-> Hu]. binv Htl ul Hul. apply byte_inv in Hul as [-> _].
    injection Htl as <-. eapply Hfin; [reflexivity| |lia|discriminate].
    unfold part_header, concat_header.
    destruct Halpha as [-> | ->].
    + change (0 =? 0) with true in Huu. cbv iota in Huu. binv Huu s Es.
      binv Huu o Eo. change (((5 + 1) * 8) mod 7) with 6 in *. change (0 <? 6) with true in Huu. cbv iota in Huu.
      injection Huu as <- <-.
      pose proof (encode_lib _ _ Es) as Hlt. destruct (lib_text_weight _ _ Hlt) as (_ & Hss & _).
      destruct (packSeptets_spec s 6 Hss ltac:(lia) ltac:(lia)) as (o' & Eo' & Hv).
      rewrite Eo in Eo'. injection Eo' as <-. change (fill_of_pad 6) with 1 in Hv.
      apply stream_val_spec in Hv; auto; try lia.
      pose proof (ud_gsm7 [5; 0; 3; ref; n; Z.of_nat i + 1] ptext s o Hlt) as U.
      change (len [5; 0; 3; ref; n; Z.of_nat i + 1]) with 6 in U. change (fill_bits 6) with 1 in U.
      specialize (U Hv). replace (Z.of_nat (length s) + 1 + (5 + 1)) with ((8 * 6 + 1) / 7 + len s)
        by (change ((8 * 6 + 1) / 7) with 7; unfold len; lia). exact U.
    + change (8 =? 0) with false in Huu. cbv iota in Huu. binv Huu o Eo. injection Huu as <- <-.
      apply encodeUcs2_inv in Eo as [Hb ->].
      pose proof (ud_ucs2 [5; 0; 3; ref; n; Z.of_nat i + 1] ptext Hb) as U.
      change (Z.of_nat (length (ucs2_be ptext))) with (len (ucs2_be ptext)). rewrite ucs2_len.
      change (len [5; 0; 3; ref; n; Z.of_nat i + 1]) with 6 in U.
      replace (2 * len ptext + (5 + 1)) with (6 + 2 * len ptext) by lia. exact U.
  - subst udh. change (Z.of_nat (length (@nil Z))) with 0 in *.
    change (0 <? 0) with false in *. cbv iota in Htl, Huu.
    binv Htl u Hu. apply byte_inv in Hu as [-> Hu].
    injection Htl as <-. unfold part_header in *.
    destruct Halpha as [-> | ->].
    + change (0 =? 0) with true in Huu. cbv iota in Huu. binv Huu s Es.
      binv Huu o Eo. injection Huu as <- <-.
      pose proof (encode_lib _ _ Es) as Hlt. destruct (lib_text_weight _ _ Hlt) as (_ & Hss & _).
      assert (s <> []) as Hse by (intros ->; rewrite packSeptets_nil in Eo; discriminate).
      destruct (packSeptets_spec s 0 Hss ltac:(lia) ltac:(auto)) as (o' & Eo' & Hv).
      rewrite Eo in Eo'. injection Eo' as <-. change (fill_of_pad 0) with 0 in Hv.
      apply stream_val_spec in Hv; auto; try lia.
      eapply Hfin; [reflexivity| |lia|].
      * pose proof (ud_gsm7 [] ptext s o Hlt) as U.
        change (len (@nil Z)) with 0 in U. change (fill_bits 0) with 0 in U.
        specialize (U Hv). change ((8 * 0 + 0) / 7 + len s) with (len s) in U. exact U.
      * intros _. left. intros E. rewrite E in Hlt. inversion Hlt. congruence.
    + change (8 =? 0) with false in Huu. cbv iota in Huu. binv Huu o Eo. injection Huu as <- <-.
      apply encodeUcs2_inv in Eo as [Hb ->].
      eapply Hfin; [reflexivity| |lia|auto].
      pose proof (ud_ucs2 [] ptext Hb) as U.
      change (Z.of_nat (length (ucs2_be ptext))) with (len (ucs2_be ptext)). rewrite ucs2_len.
      change (len (@nil Z)) with 0 in U. exact U.
Qed.

(** ** Inversion of the whole encoder *)
Lemma map_res_inv {A B} (f : A -> res B) l : forall ys, map_res f l = Ok ys -> Forall2 (fun x y => f x = Ok y) l ys.
Proof.
  induction l as [|x l IH]; intros ys H; cbn [map_res] in H; [injection H as <-; constructor|].
  binv H y Ey. binv H ys' Ey'. injection H as <-. constructor; auto.
Qed.
Lemma map_res_ok {A B} (f : A -> res B) l : (forall x, In x l -> exists y, f x = Ok y) -> exists ys, map_res f l = Ok ys.
Proof.
  induction l as [|x l IH]; intro H; [eexists; reflexivity|]. cbn [map_res].
  destruct (H x (or_introl eq_refl)) as [y ->]. destruct IH as [ys ->]; [intros; apply H; right; auto|].
  eexists; reflexivity.
Qed.
Lemma Forall2_seq {B} (R : nat -> B -> Prop) n : forall k ys, Forall2 R (seq k n) ys ->
  length ys = n /\ forall i y, nth_error ys i = Some y -> (i < n)%nat /\ R (k + i)%nat y.
Proof.
  induction n as [|n IH]; intros k ys H; inversion H; subst.
  - split; auto. intros [|i]; discriminate.
  - destruct (IH _ _ H4) as [L N]. split; [simpl; congruence|]. intros [|i] z E.
    + injection E as <-. split; [lia|]. rewrite Nat.add_0_r. auto.
    + apply N in E as [E1 E2]. split; [lia|]. replace (k + S i)%nat with (S k + i)%nat by lia. auto.
Qed.

Definition concat_of (gsm7 : bool) (text : str) : option Z :=
  if max_chars gsm7 <? len text then Some (pdu_count gsm7 text) else None.

Lemma submit_validity_inv v bits vpo : submit_validity v = Ok (bits, vpo) -> bits = 8 * vpf_of v /\ v <> VOther.
Proof.
  destruct v; cbn [submit_validity]; intro H.
  - injection H as <- <-. split; [reflexivity|discriminate].
  - binv H o Eo. injection H as <- <-. split; [reflexivity|discriminate].
  - binv H o Eo. injection H as <- <-. split; [reflexivity|discriminate].
  - discriminate.
Qed.

Lemma first_octet v (srr rd udh : bool) : v <> VOther ->
  (let fo := Z.lor 1 (8 * vpf_of v) in
   let fo := if rd then Z.lor fo 4 else fo in
   let fo := if srr then Z.lor fo 32 else fo in
   if udh then Z.lor fo 64 else fo) = submit_first rd (vpf_of v) srr udh.
Proof. intro H. destruct v, srr, rd, udh; try reflexivity; congruence. Qed.

Lemma encode_inv number text ref v smsc srr rd fl pdus :
  encodeSmsSubmitPdu number text ref v smsc srr rd fl = Ok pdus ->
  exists gsm7 vpo, submit_validity v = Ok (8 * vpf_of v, vpo) /\ v <> VOther /\ uses_gsm7 text gsm7 /\
    len pdus = pdu_count gsm7 text /\
    forall i p, nth_error pdus i = Some p -> (i < Z.to_nat (pdu_count gsm7 text))%nat /\
      submit_part number text ref smsc
        (submit_first rd (vpf_of v) srr (max_chars gsm7 <? len text))
        (if gsm7 then 0 else 8) vpo fl (concat_of gsm7 text) i = Ok p.
Proof.
  intro H. unfold encodeSmsSubmitPdu in H. cbv zeta in H.
  binv H bv Ev. destruct bv as [bits vpo]. destruct (submit_validity_inv _ _ _ Ev) as [-> Hv].
  binv H alpha Ea.
  assert (exists gsm7, alpha = (if gsm7 : bool then 0 else 8) /\ uses_gsm7 text gsm7) as (gsm7 & Eg & Hg).
  { destruct (alphabet_spec text) as [(He & E & _)|(p & c & q & -> & Hp & Hc & E)]; rewrite E in Ea.
    - injection Ea as <-. exists true. split; auto. left; auto.
    - destruct (Z.eqb_spec c 255); [discriminate|]. injection Ea as <-. exists false. split; auto.
      right. split; auto. exists p, c, q. auto. }
  exists gsm7, vpo. split; auto. split; auto. split; auto.
  assert (MAX_MESSAGE_LENGTH alpha = max_chars gsm7) as EM by (rewrite Eg; destruct gsm7; reflexivity).
  rewrite EM in H. change (Z.of_nat (length text)) with (len text) in H.
  pose proof (first_octet v srr rd (max_chars gsm7 <? len text) Hv) as F. cbv zeta in F.
  unfold pdu_count, concat_of in *. rewrite <- F. clear F.
  destruct (max_chars gsm7 <? len text) eqn:C; rewrite Eg in H;
    apply map_res_inv in H; apply Forall2_seq in H as [HL HN]; unfold pdu_count in *; rewrite ?C in *.
  - split.
    + pose proof (len_nonneg text). unfold len in *. rewrite HL. destruct gsm7; unfold max_chars; lia.
    + intros i p E. apply HN in E as [E1 E2]. split; auto.
  - split.
    + unfold len in *. rewrite HL. reflexivity.
    + intros i p E. apply HN in E as [E1 E2]. split; auto.
Qed.

(** everything about one produced PDU *)
Record part_wire (number text : str) (ref : Z) (v : validity) (smsc : option str) (srr rd fl : bool)
    (gsm7 : bool) (i : nat) (p : pdu) (w : submit) : Prop := {
  pw_data : pdu_data p = submit_octets w;
  pw_tlen : pdu_tpduLength p = len (submit_octets w) - 1;
  pw_smsc : smsc_enc smsc (s_smsc w);
  pw_first : s_first w = submit_first rd (vpf_of v) srr (max_chars gsm7 <? len text);
  pw_ref : s_ref w = ref /\ 0 <= ref < 256;
  pw_dest : encodeAddressField number false = Ok (s_dest w);
  pw_pid : s_pid w = 0;
  pw_dcs : s_dcs w = data_coding gsm7 fl;
  pw_vp : submit_validity v = Ok (8 * vpf_of v, match v with VNone => None | _ => Some (s_vp w) end)
          /\ octets_ok (s_vp w) /\ (v = VNone -> s_vp w = []);
  pw_ud : user_data gsm7 (part_header ref (concat_of gsm7 text) i)
            (part_text gsm7 (concat_of gsm7 text) text i) (s_udl w) (s_ud w);
  pw_udl : 0 <= s_udl w < 256;
  pw_cc : match concat_of gsm7 text with
          | None => text <> [] \/ gsm7 = false
          | Some n => 0 <= n < 256 /\ Z.of_nat i + 1 < 256 end }.

Lemma encode_wires number text ref v smsc srr rd fl pdus :
  encodeSmsSubmitPdu number text ref v smsc srr rd fl = Ok pdus ->
  exists gsm7, v <> VOther /\ uses_gsm7 text gsm7 /\ len pdus = pdu_count gsm7 text /\
    forall i p, nth_error pdus i = Some p -> (i < Z.to_nat (pdu_count gsm7 text))%nat /\
      exists w, part_wire number text ref v smsc srr rd fl gsm7 i p w.
Proof.
  intro H. destruct (encode_inv _ _ _ _ _ _ _ _ _ H) as (gsm7 & vpo & Ev & Hv & Hg & HL & HN).
  exists gsm7. split; auto. split; auto. split; auto. intros i p E. apply HN in E as [Hi E].
  split; auto.
  assert (0 <= submit_first rd (vpf_of v) srr (max_chars gsm7 <? len text) < 256) as Hfo.
  { unfold submit_first. assert (0 <= vpf_of v <= 3) by (destruct v; cbn [vpf_of]; lia).
    destruct rd, srr, (max_chars gsm7 <? len text); cbn [Z.b2z]; lia. }
  apply submit_part_inv in E as (w & H1 & H2 & H3 & H4 & H5 & H6 & H7 & H8 & H9 & H10 & H11 & H12 & H13 & H14);
    [|destruct gsm7; auto|exact Hfo].
  replace (gsm7_of (if gsm7 then 0 else 8)) with gsm7 in * by (destruct gsm7; reflexivity).
  exists w. constructor; auto.
  - rewrite Ev. destruct v; cbn [submit_validity] in Ev; try congruence.
    + injection Ev as <-. split; auto.
    + binv Ev o Eo. injection Ev as <-. rewrite H10. split; auto. split; [congruence|discriminate].
    + binv Ev o Eo. injection Ev as <-. rewrite H10. split; auto. split; [congruence|discriminate].
  - destruct (concat_of gsm7 text); auto. cbn [part_text] in H14. destruct H14; [auto|right; destruct gsm7; congruence].
Qed.

(** ** Decoding *)
Lemma dcs_decode gsm7 fl : decodeDataCoding (data_coding gsm7 fl) = if gsm7 then 0 else 2.
Proof. destruct gsm7, fl; reflexivity. Qed.

Lemma decode_ud_plain gsm7 t udl ud : user_data gsm7 [] t udl ud -> (gsm7 = true -> t <> [] /\ ~ In 27 t) ->
  exists t', text_received gsm7 0 t t' /\ decodeUserData ud udl (if gsm7 then 0 else 2) false = Ok (None, t').
Proof.
  intros H Ht. inversion H as [hdr t0 s v Hl Hv E1 E2 E3 E4|hdr t0 Hb E1 E2 E3 E4]; subst; cbn [app].
  - destruct (Ht eq_refl) as [Hne Hn]. change (len (@nil Z)) with 0 in *. change (fill_bits 0) with 0 in *.
    destruct (lib_text_weight _ _ Hl) as (_ & Hs & _). apply lib_encode in Hl.
    apply stream_val_spec in Hv; auto; try lia.
    destruct (decode_lossy 0 t s Hl Hne Hn) as (t' & D & R).
    exists t'. split; auto. unfold decodeUserData. cbn [bind].
    change (0 =? 0) with true. cbv iota. cbn [bind].
    change ((8 * 0 + 0) / 7 + len s) with (len s).
    rewrite (unpack_stream0 s v (Some (len s))); auto.
    + cbn [bind]. rewrite D. reflexivity.
    + eapply encode_nonempty; eauto.
    + destruct Hv as (_ & HL & _). pose proof (len_nonneg s). lia.
  - exists t. split; [reflexivity|]. unfold decodeUserData. cbn [bind].
    change (2 =? 0) with false. change (2 =? 2) with true. cbv iota. unfold decodeUcs2.
    change (len (@nil Z)) with 0. rewrite <- (app_nil_r (ucs2_be t)).
    rewrite (decodeUcs2_ok t [] Hb); [reflexivity|]. left. lia.
Qed.

Lemma decode_concat_udh ref n i rest fuel :
  decode_udh (S (S fuel)) (0 :: 3 :: ref :: n :: i :: rest) 0 5 =
    Ok ([mk_ie 0 3 [ref; n; i] (IEConcat ref n i)], rest).
Proof. reflexivity. Qed.

Lemma decode_ud_concat gsm7 ref n i t udl ud :
  user_data gsm7 (concat_header ref n i) t udl ud -> (gsm7 = true -> t <> [] /\ ~ In 27 t) ->
  exists t', text_received gsm7 1 t t' /\
    decodeUserData ud udl (if gsm7 then 0 else 2) true = Ok (Some [mk_ie 0 3 [ref; n; i] (IEConcat ref n i)], t').
Proof.
  intros H Ht. inversion H as [hdr t0 s v Hl Hv E1 E2 E3 E4|hdr t0 Hb E1 E2 E3 E4]; subst; unfold concat_header; cbn [app].
  - destruct (Ht eq_refl) as [Hne Hn]. unfold concat_header in *.
    change (len [5; 0; 3; ref; n; i]) with 6 in *. change (fill_bits 6) with 1 in *.
    change ((8 * 6 + 1) / 7) with 7.
    destruct (lib_text_weight _ _ Hl) as (_ & Hs & _). apply lib_encode in Hl.
    apply stream_val_spec in Hv; auto; try lia.
    destruct (decode_lossy 1 t s Hl Hne Hn) as (t' & D & R).
    exists t'. split; auto. unfold decodeUserData. cbn [next bind length].
    rewrite decode_concat_udh. cbn [bind]. change (0 =? 0) with true. cbv iota.
    destruct v as [|p o].
    { destruct Hv as (_ & HL & _). rewrite (@len_nil Z) in HL. pose proof (len_nonneg s). lia. }
    cbn [next bind]. change (((5 + 1) * 8) mod 7 + 1) with (8 - 1).
    rewrite (unpack_stream_fill s p o 1 (7 + len s)); auto; try lia.
    + cbn [bind]. rewrite D. reflexivity.
    + destruct Hv as (_ & HL & _). rewrite len_cons in HL. pose proof (len_nonneg s). pose proof (len_nonneg o). lia.
  - exists t. split; [reflexivity|]. unfold decodeUserData. cbn [next bind length].
    rewrite decode_concat_udh. cbn [bind].
    change (2 =? 0) with false. change (2 =? 2) with true. cbv iota. unfold decodeUcs2, concat_header.
    change (len [5; 0; 3; ref; n; i]) with 6. rewrite <- (app_nil_r (ucs2_be t)).
    rewrite (decodeUcs2_ok t [] Hb); [reflexivity|]. right. split; [auto|lia].
Qed.

(** addresses *)
Lemma address_roundtrip a sm o : encodeAddressField a sm = Ok o -> ~ In 27 a ->
  octets_ok o /\ exists a', address_received a a' /\
    forall tail, octets_ok tail -> decodeAddressField (o ++ tail) sm = Ok ((Some a', len o), tail).
Proof.
  intros E Hn. assert (a <> []) as Hne by (intros ->; discriminate).
  destruct (phone_or_alpha a Hne) as [(d & ton & Hp)|Ha].
  - pose proof Hp as (Hd & Hdn & Ht).
    assert (ton = 1 \/ ton = 2) as Htn by (destruct Ht as [[_ ->]|[_ ->]]; auto).
    rewrite (encode_phone a d ton sm Hp) in E. binv E l El. apply byte_inv in El as [-> El]. injection E as <-.
    split.
    + constructor; [lia|]. constructor; [lia|]. apply semi_octets_ok; auto.
    + exists a. split; [econstructor; eauto|]. intros tail _. simpl app.
      rewrite decode_phone_field; auto; try lia; rewrite type_of_toa by lia; try lia.
      rewrite !len_cons. do 3 f_equal; [|lia]. f_equal. destruct Ht as [[-> ->]|[-> ->]]; reflexivity.
  - rewrite (encode_alpha a sm Ha) in E. binv E s Es. binv E v Ev. binv E l El.
    apply byte_inv in El as [-> El]. injection E as <-.
    destruct (encode_ok a (encode_ok_inv _ _ Es) false) as (r & E' & Hs & _). rewrite Es in E'. injection E' as <-.
    pose proof (encode_nonempty _ _ Es Hne) as Hse.
    destruct (packSeptets_spec s 0 Hs ltac:(lia) ltac:(auto)) as (v' & E' & Hv). rewrite Ev in E'. injection E' as <-.
    change (fill_of_pad 0) with 0 in Hv.
    destruct (decode_lossy 0 a s Es Hne Hn) as (t' & D & R).
    split.
    + constructor; [lia|]. constructor; [lia|]. apply Hv.
    + exists t'. split.
      * destruct Ha. econstructor 2; eauto.
      * intros tail Htl. simpl app.
        destruct (decode_alpha_field a s v (2 * len v) 0xD0 tail sm) as (t'' & R' & ->); auto; try lia.
        rewrite (gsm7_received_fun _ _ _ _ R R'), !len_cons. do 3 f_equal. lia.
Qed.

Lemma smsc_roundtrip smsc o : smsc_enc smsc o -> no_esc smsc ->
  octets_ok o /\ exists smsc', smsc_received smsc smsc' /\
    forall tail, octets_ok tail -> decodeAddressField (o ++ tail) true = Ok ((smsc', len o), tail).
Proof.
  destruct smsc as [[|c s]|]; cbn [smsc_enc no_esc]; intros E Hn.
  - subst o. split; [repeat constructor; lia|]. exists None. split; [constructor|]. reflexivity.
  - destruct (address_roundtrip _ _ _ E Hn) as (Ho & a' & Ha & D). split; auto.
    exists (Some a'). split; [constructor; auto; discriminate|exact D].
  - subst o. split; [repeat constructor; lia|]. exists None. split; [constructor|]. reflexivity.
Qed.

(** validity *)
Lemma user_data_octets gsm7 hdr t udl ud : user_data gsm7 hdr t udl ud -> octets_ok hdr -> octets_ok ud.
Proof.
  destruct 1 as [hdr t s v Hl Hv|hdr t Hb]; intro Hh; apply Forall_app; split; auto.
  - apply Hv.
  - apply ucs2_octets; auto.
Qed.

Lemma land_first_3 rd vpf srr udh : vpf = 0 \/ vpf = 2 \/ vpf = 3 ->
  Z.land (submit_first rd vpf srr udh) 3 = 1 /\
  Z.shiftr (Z.land (submit_first rd vpf srr udh) 24) 3 = vpf /\
  negb (Z.land (submit_first rd vpf srr udh) 64 =? 0) = udh.
Proof. intros [->|[->| ->]]; destruct rd, srr, udh; repeat split. Qed.

Lemma vpf_cases v : vpf_of v = 0 \/ vpf_of v = 2 \/ vpf_of v = 3.
Proof. destruct v; cbn [vpf_of]; auto. Qed.

Lemma vp_decode v vp vpo : validity_ok v -> submit_validity v = Ok (8 * vpf_of v, vpo) ->
  vp = match vpo with Some o => o | None => [] end ->
  octets_ok vp /\ exists dv, validity_received v dv /\ forall tail,
    (if vpf_of v =? 2 then
          let* (o, it) := next (vp ++ tail) in
          let* t := decodeRelativeValidityPeriod o in Ok (DVRelative t, it)
        else if vpf_of v =? 3 then
          let* (t, it) := decodeTimestamp (vp ++ tail) in Ok (DVAbsolute t, it)
        else Ok (DVNone, vp ++ tail)) = Ok (dv, tail).
Proof.
  intros Hok E ->. destruct v as [|t|t|]; cbn [submit_validity validity_ok vpf_of] in *; [| | |tauto].
  - injection E as <-. split; [constructor|]. exists DVNone. split; [constructor|]. reflexivity.
  - binv E o Eo. injection E as <-. destruct (encode_vp_floor t Hok) as (o' & Eo' & Hi & Hle & Hmax).
    rewrite Eo in Eo'. injection Eo' as <-. split; [constructor; [unfold in_octet in Hi; lia|constructor]|].
    eexists. split; [econstructor; eauto|]. intro tail.
    change (2 =? 2) with true. cbv iota. cbn [app next bind]. rewrite decode_vp_spec by auto. reflexivity.
  - binv E o Eo. injection E as <-. destruct Hok as [q Hq]. rewrite (encodeTimestamp_ok t q Hq) in Eo.
    injection Eo as <-. split.
    { assert (0 <= dt_year t mod 100 <= 99) by lia.
      destruct Hq as (_ & Hd & (Hh & Hmi & Hs) & _ & Hq & _). apply real_date_bounds in Hd as [Hm Hd].
      unfold ts23040_timestamp, swapped_bcd.
      assert (Q : 0 <= Z.abs q <= 79) by lia. revert Q. generalize (Z.abs q); intros aq Q.
      revert H. generalize (dt_year t mod 100); intros yy H.
      repeat (constructor; [destruct (q <? 0); lia|]). constructor. }
    exists (DVAbsolute t). split; [econstructor; eauto|].
    intro tail. change (3 =? 2) with false. change (3 =? 3) with true. cbv iota.
    rewrite (decodeTimestamp_ok t q tail Hq). reflexivity.
Qed.

Lemma skipn_in {A} (x : A) n l : In x (skipn n l) -> In x l.
Proof. intro H. rewrite <- (firstn_skipn n l). apply in_or_app. auto. Qed.
Lemma firstn_in {A} (x : A) n l : In x (firstn n l) -> In x l.
Proof. intro H. rewrite <- (firstn_skipn n l). apply in_or_app. auto. Qed.
Lemma slice_in x t i k : In x (chunk k i t) -> In x t.
Proof. unfold chunk. intro H. eapply skipn_in, firstn_in, H. Qed.

(** every part that is produced has text in it *)
Lemma slice_nonempty gsm7 text i : max_chars gsm7 < len text -> (i < Z.to_nat (pdu_count gsm7 text))%nat ->
  chunk (part_chars gsm7) i text <> [].
Proof.
  intros Hl Hi E. unfold pdu_count in Hi. replace (max_chars gsm7 <? len text) with true in Hi by lia.
  assert (length (chunk (part_chars gsm7) i text) = 0%nat) as L by (rewrite E; reflexivity).
  unfold chunk in L. rewrite firstn_length, skipn_length in L. unfold len in *.
  destruct gsm7; unfold max_chars, part_chars in *; lia.
Qed.

Lemma text_part_ok text gsm7 i : (i < Z.to_nat (pdu_count gsm7 text))%nat -> ~ In 27 text ->
  (concat_of gsm7 text = None -> text <> [] \/ gsm7 = false) ->
  gsm7 = true -> part_text gsm7 (concat_of gsm7 text) text i <> [] /\ ~ In 27 (part_text gsm7 (concat_of gsm7 text) text i).
Proof.
  intros Hi Hn Hc ->. unfold concat_of in *. destruct (max_chars true <? len text) eqn:C; cbn [part_text].
  - split; [apply (slice_nonempty true); [lia|auto]|]. intro F. apply slice_in in F. auto.
  - destruct (Hc eq_refl); [auto|discriminate].
Qed.

(** the decoded message *)
Lemma decode_part number text ref v smsc srr rd fl gsm7 i p w :
  part_wire number text ref v smsc srr rd fl gsm7 i p w ->
  (i < Z.to_nat (pdu_count gsm7 text))%nat ->
  ~ In 27 text -> ~ In 27 number -> no_esc smsc -> validity_ok v ->
  octets_ok (pdu_data p) /\
  exists smsc' number' dv text', smsc_received smsc smsc' /\ address_received number number' /\
    validity_received v dv /\
    text_received gsm7 (match concat_of gsm7 text with None => 0 | Some _ => 1 end)
                  (part_text gsm7 (concat_of gsm7 text) text i) text' /\
    decodeSmsPdu_bytes (pdu_data p) =
      Ok (mk_sms smsc' (len (tpdu_octets w))
            (SmsSubmit ref (Some number') 0 dv
               (match concat_of gsm7 text with
                | None => None
                | Some n => Some [mk_ie 0 3 [ref; n; Z.of_nat i + 1] (IEConcat ref n (Z.of_nat i + 1))] end)
               text')).
Proof.
  intros W Hi Hnt Hnn Hns Hv.
  destruct W as [Wd Wt Ws Wf [Wr Hr] Wa Wp Wc [Wv [Wvo Wvn]] Wu Wl Wcc].
  destruct (smsc_roundtrip _ _ Ws Hns) as (Hso & smsc' & Rs & Ds).
  destruct (address_roundtrip _ _ _ Wa Hnn) as (Hao & number' & Ra & Da).
  destruct (vp_decode v (s_vp w) _ Hv Wv) as (Hvo & dv & Rv & Dv).
  { destruct v; auto. }
  assert (exists text', text_received gsm7 (match concat_of gsm7 text with None => 0 | Some _ => 1 end)
            (part_text gsm7 (concat_of gsm7 text) text i) text' /\
          decodeUserData (s_ud w) (s_udl w) (if gsm7 then 0 else 2) (max_chars gsm7 <? len text) =
            Ok (match concat_of gsm7 text with
                | None => None
                | Some n => Some [mk_ie 0 3 [ref; n; Z.of_nat i + 1] (IEConcat ref n (Z.of_nat i + 1))] end, text'))
    as (text' & Rt & Dt).
  { assert (gsm7 = true -> part_text gsm7 (concat_of gsm7 text) text i <> [] /\ ~ In 27 (part_text gsm7 (concat_of gsm7 text) text i)) as Hp.
    { intro Hg. apply text_part_ok; auto. intro Hc. rewrite Hc in Wcc. exact Wcc. }
    unfold concat_of in *. destruct (max_chars gsm7 <? len text) eqn:C; cbn [part_header] in Wu.
    - apply decode_ud_concat; auto.
    - apply decode_ud_plain; auto. }
  assert (Hud : octets_ok (s_ud w)).
  { eapply user_data_octets; [exact Wu|]. destruct (concat_of gsm7 text) as [n|]; cbn [part_header]; [|constructor].
    unfold concat_header. repeat (constructor; [lia|]). constructor. }
  assert (Hfo : 0 <= s_first w < 256).
  { rewrite Wf. unfold submit_first. pose proof (vpf_cases v).
    destruct rd, srr, (max_chars gsm7 <? len text); cbn [Z.b2z]; lia. }
  assert (Hdc : 0 <= s_dcs w < 256) by (rewrite Wc; unfold data_coding; destruct gsm7, fl; cbn [Z.b2z]; lia).
  assert (Ht3 : octets_ok ([s_udl w] ++ s_ud w)) by (constructor; auto).
  assert (Ht2 : octets_ok ([s_pid w; s_dcs w] ++ s_vp w ++ [s_udl w] ++ s_ud w)).
  { constructor; [lia|]. constructor; [lia|]. apply Forall_app; auto. }
  assert (Ht1 : octets_ok (tpdu_octets w)).
  { unfold tpdu_octets. constructor; [lia|]. constructor; [lia|]. apply Forall_app; auto. }
  rewrite Wd. split; [apply Forall_app; auto|].
  exists smsc', number', dv, text'. split; auto. split; auto. split; auto. split; auto.
  unfold decodeSmsPdu_bytes. cbv zeta. unfold submit_octets at 1. rewrite Ds by auto. cbn [bind].
  unfold tpdu_octets at 1. cbn [app next bind].
  rewrite Wf. destruct (land_first_3 rd (vpf_of v) srr (max_chars gsm7 <? len text) (vpf_cases v)) as (F1 & F2 & F3).
  rewrite F1, F2, F3. change (1 =? 0) with false. change (1 =? 1) with true. cbv iota. cbn [next bind].
  change (s_dest w ++ s_pid w :: s_dcs w :: s_vp w ++ s_udl w :: s_ud w)
    with (s_dest w ++ ([s_pid w; s_dcs w] ++ s_vp w ++ [s_udl w] ++ s_ud w)).
  rewrite Da by auto. cbn [app next bind]. rewrite Dv. cbn [next bind].
  rewrite Wc, dcs_decode, Dt. cbn [bind]. rewrite Wp, Wr. do 2 f_equal.
  change (Z.of_nat (length (submit_octets w))) with (len (submit_octets w)).
  unfold submit_octets. rewrite len_app. lia.
Qed.

(** ** Hex strings *)
Lemma unhexlify_upper o : octets_ok o -> unhexlify (pdu_str o) = Some o.
Proof.
  induction 1 as [|b o Hb Ho IH]; [reflexivity|].
  unfold pdu_str. cbn [flat_map app unhexlify]. fold (pdu_str o).
  rewrite !hexval_upper by lia. rewrite IH. f_equal. f_equal. lia.
Qed.
Lemma decode_hex o : octets_ok o -> decodeSmsPdu (pdu_str o) = decodeSmsPdu_bytes o.
Proof. intro H. unfold decodeSmsPdu. rewrite unhexlify_upper by auto. reflexivity. Qed.

(** ** Which calls succeed *)
Lemma address_ok_encode a : (exists o, encodeAddressField a false = Ok o) <-> address_ok a 255.
Proof.
  split.
  - intros [o E]. assert (a <> []) as Hne by (intros ->; discriminate).
    destruct (phone_or_alpha a Hne) as [(d & ton & Hp)|Ha].
    + left. exists d, ton. split; auto. destruct (Z.le_gt_cases (len d) 255); auto.
      destruct (phone_final a d ton Hp) as (_ & H2 & _). rewrite H2 in E by lia. discriminate.
    + right. assert (Forall encodable a) as He.
      { rewrite (encode_alpha a false Ha) in E. binv E s Es. eapply encode_ok_inv; eauto. }
      destruct (encode_ok a He false) as (s & _ & _ & Hw). pose proof Ha as [_ Hp].
      split; auto. split; auto. split; auto. exists (len s). split; auto.
      destruct (Z.le_gt_cases (len s) 145); auto.
      destruct (alpha_final a (len s) false Ha He Hw) as [_ H2]. rewrite H2 in E by lia. discriminate.
  - intros [(d & ton & Hp & L)|(Hne & Hp & He & n & Hw & L)].
    + destruct (phone_final a d ton Hp) as (H1 & _). destruct (H1 L) as (v & _ & E & _). eauto.
    + destruct (alpha_final a n false (conj Hne Hp) He Hw) as [H1 _]. destruct (H1 L) as (s & v & l & _ & _ & E & _). eauto.
Qed.
Lemma smsc_ok_encode a : (exists o, encodeAddressField a true = Ok o) <-> address_ok a 508.
Proof.
  split.
  - intros [o E]. assert (a <> []) as Hne by (intros ->; discriminate).
    destruct (phone_or_alpha a Hne) as [(d & ton & Hp)|Ha].
    + left. exists d, ton. split; auto. destruct (Z.le_gt_cases (len d) 508); auto.
      destruct (phone_final a d ton Hp) as (_ & _ & _ & H2). rewrite H2 in E by lia. discriminate.
    + right. assert (Forall encodable a) as He.
      { rewrite (encode_alpha a true Ha) in E. binv E s Es. eapply encode_ok_inv; eauto. }
      destruct (encode_ok a He false) as (s & _ & _ & Hw). pose proof Ha as [_ Hp].
      split; auto. split; auto. split; auto. exists (len s). split; auto.
      destruct (Z.le_gt_cases (len s) 145); auto.
      destruct (alpha_final a (len s) true Ha He Hw) as [_ H2]. rewrite H2 in E by lia. discriminate.
  - intros [(d & ton & Hp & L)|(Hne & Hp & He & n & Hw & L)].
    + destruct (phone_final a d ton Hp) as (_ & _ & H1 & _). destruct (H1 L) as (v & _ & E & _). eauto.
    + destruct (alpha_final a n true (conj Hne Hp) He Hw) as [H1 _]. destruct (H1 L) as (s & v & l & _ & _ & E & _). eauto.
Qed.

Lemma encodeSemiOctets_octets s o : encodeSemiOctets s = Ok o -> octets_ok o.
Proof. unfold encodeSemiOctets. cbv zeta. intro H. binv H x Ex. apply mk_bytes_inv in H as [-> H]. exact H. Qed.
Lemma semi_pairs_len s : forall o, semi_pairs s = Ok o -> 2 * len o = len s.
Proof.
  induction s as [|a|a b s IH] using list_ind2; intros o H; cbn [semi_pairs] in H; [injection H as <-; reflexivity|discriminate|].
  binv H x Ex. binv H y Ey. injection H as <-. rewrite !len_cons. specialize (IH _ Ey). lia.
Qed.
Lemma encodeTimestamp_len t o : encodeTimestamp t = Ok o -> len o = 7.
Proof.
  unfold encodeTimestamp. destruct (dt_utcoff t) as [off|]; [|discriminate]. intro H. binv H x Ex.
  assert (length x = 2%nat) as Lx.
  { destruct (0 <=? td_days off); [injection Ex as <-; reflexivity|]. binv Ex y Ey. injection Ex as <-. reflexivity. }
  unfold encodeSemiOctets in H. cbv zeta in H. binv H y Ey. apply mk_bytes_inv in H as [-> _].
  assert (length (strftime_ymdHMS t ++ x) = 14%nat) as L by (rewrite app_length, Lx; reflexivity).
  rewrite L in Ey. change (Nat.odd 14) with false in Ey. cbv iota in Ey.
  apply semi_pairs_len in Ey. unfold len in *. lia.
Qed.
Lemma two_digits_ok n : 0 <= n <= 99 -> nibs (two_digits n) [n / 10; n mod 10].
Proof. apply two_digits_nibs. Qed.
Lemma encodeTimestamp_total t off : py_datetime t -> dt_utcoff t = Some off -> exists o, encodeTimestamp t = Ok o.
Proof.
  intros (Hy & Hd & (Hh & Hmi & Hs) & Hu & Ho) E. unfold encodeTimestamp. rewrite E in *.
  apply real_date_bounds in Hd as [Hm Hd].
  assert (exists x a b, (if 0 <=? td_days off then Ok (two_digits (td_seconds off / 60 / 15))
        else let* v := py_int 16 (two_digits ((td_days off * -3600 * 24 - td_seconds off) / 60 / 15)) in
          Ok [hexdigit_upper (Z.lor v 128 / 16); hexdigit_upper (Z.lor v 128 mod 16)]) = Ok x /\ nibs x [a; b]) as (x & a & b & Ex & Hx).
  { assert (K : td_days off * 86400 + td_seconds off = off / us_per_s /\ 0 <= td_seconds off < 86400).
    { unfold td_days, td_seconds, us_per_day, us_per_s in *. lia. }
    destruct (Z.leb_spec 0 (td_days off)).
    - eexists _, _, _. split; [reflexivity|]. apply two_digits_nibs. unfold us_per_day, us_per_s in *. lia.
    - set (k := (td_days off * -3600 * 24 - td_seconds off) / 60 / 15).
      assert (0 <= k <= 96) as Hk by (subst k; unfold us_per_day, us_per_s in *; lia). clearbody k.
      unfold two_digits. rewrite (py_int16_2 (48 + k / 10) (48 + k mod 10) (k / 10) (k mod 10))
        by (rewrite hexval_digit by lia; f_equal; lia). cbn [bind].
      eexists _, _, _. split; [reflexivity|].
      assert (0 <= Z.lor (k / 10 * 16 + k mod 10) 128 < 256) as Hl.
      { assert (0 <= k / 10 * 16 + k mod 10 < 256) by lia.
        split; [apply Z.lor_nonneg; lia|]. apply Z.log2_lt_cancel.
        rewrite Z.log2_lor by lia. change (Z.log2 256) with 8. apply Z.max_lub_lt; [|reflexivity].
        destruct (Z.eq_dec (k / 10 * 16 + k mod 10) 0) as [->|]; [reflexivity|]. apply Z.log2_lt_pow2; [lia|]. change (2 ^ 8) with 256. lia. }
      repeat constructor; apply hexval_upper; lia. }
  rewrite Ex. cbn [bind].
  eexists. apply (encodeSemiOctets_even _ ([dt_year t mod 100 / 10; (dt_year t mod 100) mod 10] ++ [dt_month t / 10; dt_month t mod 10]
    ++ [dt_day t / 10; dt_day t mod 10] ++ [dt_hour t / 10; dt_hour t mod 10] ++ [dt_minute t / 10; dt_minute t mod 10]
    ++ [dt_second t / 10; dt_second t mod 10] ++ [a; b])).
  - unfold strftime_ymdHMS, nibs. rewrite <- !app_assoc. repeat apply Forall2_app; auto; apply two_digits_nibs; lia.
  - rewrite app_length. inversion Hx as [|? ? ? ? _ Hx1]; inversion Hx1 as [|? ? ? ? _ Hx2]; inversion Hx2; subst. reflexivity.
Qed.
Lemma encodeTimestamp_octets t o : encodeTimestamp t = Ok o -> octets_ok o.
Proof.
  unfold encodeTimestamp. destruct (dt_utcoff t); [|discriminate]. intro H. binv H x Ex.
  eapply encodeSemiOctets_octets; eauto.
Qed.

Lemma slice_length_le text i k : len (chunk k i text) <= Z.of_nat k.
Proof. unfold chunk, len. rewrite firstn_length. lia. Qed.

Lemma part_accept number text ref smsc fo gsm7 vpo fl i :
  uses_gsm7 text gsm7 -> address_ok number 255 -> smsc_ok smsc -> 0 <= ref < 256 ->
  match vpo with Some o => octets_ok o | None => True end ->
  (concat_of gsm7 text <> None -> pdu_count gsm7 text < 256) ->
  (i < Z.to_nat (pdu_count gsm7 text))%nat -> part_ok gsm7 text i ->
  exists p, submit_part number text ref smsc fo (if gsm7 then 0 else 8) vpo fl (concat_of gsm7 text) i = Ok p.
Proof.
  intros Hg Ha Hs Hr Hv Hc Hi Hp. unfold submit_part. cbv zeta.
  change (slice text i 153) with (chunk 153 i text). change (slice text i 67) with (chunk 67 i text).
  assert (exists o, match smsc with Some (c :: s) => encodeAddressField (c :: s) true | _ => Ok [0] end = Ok o) as [so ->].
  { destruct smsc as [[|c s]|]; eauto. apply smsc_ok_encode in Hs. exact Hs. }
  cbn [bind].
  apply address_ok_encode in Ha as [ao Ea].
  assert (Hvp : match vpo with Some o => mk_bytes o | None => Ok [] end = Ok match vpo with Some o => o | None => [] end).
  { destruct vpo; auto. apply mk_bytes_ok; auto. }
  rewrite Ea, Hvp, (byte_ok ref) by lia. unfold concat_of, part_ok in *. pose proof (len_nonneg text).
  assert (Hsub : forall k, gsm7 = true -> Forall encodable (chunk k i text)).
  { intros k ->. destruct Hg as [[_ He]|[? _]]; [|discriminate].
    apply Forall_forall. intros x Hx. apply slice_in in Hx. rewrite Forall_forall in He. auto. }
  destruct (max_chars gsm7 <? len text) eqn:C.
  - specialize (Hc ltac:(discriminate)).
    assert (1 <= pdu_count gsm7 text) by (unfold pdu_count; rewrite C; destruct gsm7; unfold max_chars; lia).
    unfold concat_encode. replace (255 <? ref) with false by lia. unfold ie_encode_raw.
    rewrite mk_bytes_ok by (repeat (constructor; [lia|]); constructor).
    cbn [bind length]. change (0 <? Z.of_nat 5) with true. change (((Z.of_nat 5 + 1) * 8) mod 7) with 6. cbv iota.
    destruct gsm7; unfold max_chars in C.
    + change (0 =? 0) with true. cbv iota. replace (160 <? len text) with true in Hp by lia.
      destruct Hp as (n & Hw & Hn).
      destruct (encode_ok _ (Hsub 153%nat eq_refl) false) as (s & Es & Hss & Hw'). rewrite Es. cbn [bind].
      destruct (packSeptets_spec s 6 Hss ltac:(lia) ltac:(lia)) as (o & Eo & _). rewrite Eo. cbn [bind].
      change (0 <? 6) with true. cbv iota.
      rewrite (text_weight_fun _ _ Hw _ Hw') in Hn.
      rewrite (byte_ok (Z.of_nat (length s) + 1 + (Z.of_nat 5 + 1))) by (unfold len in Hn; lia). cbn [bind].
      change (byte (Z.of_nat 5)) with (@Ok Z 5). cbn [bind]. eexists; reflexivity.
    + change (8 =? 0) with false. cbv iota. replace (70 <? len text) with true in Hp by lia.
      rewrite encodeUcs2_ok by auto. cbn [bind].
      pose proof (slice_length_le text i 67). pose proof (ucs2_len (chunk 67 i text)) as U.
      rewrite (byte_ok (Z.of_nat (length (ucs2_be (chunk 67 i text))) + (Z.of_nat 5 + 1))) by (unfold len in *; lia).
      cbn [bind]. change (byte (Z.of_nat 5)) with (@Ok Z 5). cbn [bind]. eexists; reflexivity.
  - cbn [bind length]. change (0 <? Z.of_nat 0) with false. cbv iota.
    destruct gsm7; unfold max_chars in C.
    + change (0 =? 0) with true. cbv iota. replace (160 <? len text) with false in Hp by lia.
      destruct Hp as (Hne & n & Hw & Hn). destruct Hg as [[_ He]|[? _]]; [|discriminate].
      destruct (encode_ok _ He false) as (s & Es & Hss & Hw'). rewrite Es. cbn [bind].
      pose proof (encode_nonempty _ _ Es Hne) as Hse.
      destruct (packSeptets_spec s 0 Hss ltac:(lia) ltac:(auto)) as (o & Eo & _). rewrite Eo. cbn [bind].
      rewrite (text_weight_fun _ _ Hw _ Hw') in Hn.
      rewrite (byte_ok (Z.of_nat (length s))) by (unfold len in Hn; lia). cbn [bind]. eexists; reflexivity.
    + change (8 =? 0) with false. cbv iota. replace (70 <? len text) with false in Hp by lia.
      rewrite encodeUcs2_ok by auto. cbn [bind]. pose proof (ucs2_len text) as U.
      rewrite (byte_ok (Z.of_nat (length (ucs2_be text)))) by (unfold len in *; lia).
      cbn [bind]. eexists; reflexivity.
Qed.

Lemma encode_accepts number text ref v smsc srr rd fl :
  (forall t, v = VAbsolute t -> py_datetime t) ->
  (exists pdus, encodeSmsSubmitPdu number text ref v smsc srr rd fl = Ok pdus) <->
  exists gsm7, uses_gsm7 text gsm7 /\ address_ok number 255 /\ smsc_ok smsc /\ 0 <= ref <= 255 /\
    validity_encodes v /\ (max_chars gsm7 < len text -> pdu_count gsm7 text <= 255) /\
    forall i, (i < Z.to_nat (pdu_count gsm7 text))%nat -> part_ok gsm7 text i.
Proof.
  intro Hpy. split.
  - intros [pdus E]. pose proof (encode_wires _ _ _ _ _ _ _ _ _ E) as (gsm7 & Hv & Hg & HL & HN).
    exists gsm7. split; auto.
    assert (1 <= pdu_count gsm7 text) as Hc1.
    { unfold pdu_count. destruct (_ <? _) eqn:C; [|lia]. pose proof (len_nonneg text). destruct gsm7; unfold max_chars in *; lia. }
    assert (Hall : forall i, (i < Z.to_nat (pdu_count gsm7 text))%nat -> exists p w, part_wire number text ref v smsc srr rd fl gsm7 i p w).
    { intros i Hi. destruct (nth_error pdus i) as [p|] eqn:En.
      - apply HN in En as [_ [w W]]. eauto.
      - apply nth_error_None in En. unfold len in HL. lia. }
    destruct (Hall 0%nat ltac:(lia)) as (p0 & w0 & W0).
    split; [apply address_ok_encode; exists (s_dest w0); apply (pw_dest _ _ _ _ _ _ _ _ _ _ _ _ W0)|].
    split. { pose proof (pw_smsc _ _ _ _ _ _ _ _ _ _ _ _ W0) as X. destruct smsc as [[|c s]|]; cbn [smsc_ok]; auto.
             apply smsc_ok_encode. exists (s_smsc w0). exact X. }
    split; [pose proof (pw_ref _ _ _ _ _ _ _ _ _ _ _ _ W0); lia|].
    split. { destruct (pw_vp _ _ _ _ _ _ _ _ _ _ _ _ W0) as (X & Y & _). destruct v as [|t|t|]; cbn [validity_encodes]; auto.
             - cbn [submit_validity] in X. binv X o Eo. injection X as X. rewrite <- X in Y.
               destruct (Z.le_gt_cases (300 * us_per_s) t).
               + destruct (Z.le_gt_cases (442 * us_per_day) t); [|lia]. rewrite encode_vp_long in Eo by auto. discriminate.
               + destruct (encode_vp_short t ltac:(lia)) as (o' & Eo' & Ho). rewrite Eo in Eo'. injection Eo' as <-.
                 inversion Y; subst. lia.
             - cbn [submit_validity] in X. binv X o Eo. unfold encodeTimestamp in Eo. intro U. rewrite U in Eo. discriminate. }
    split.
    { intro Hm. assert (Z.to_nat (pdu_count gsm7 text) - 1 < Z.to_nat (pdu_count gsm7 text))%nat as Hl by lia.
      destruct (Hall _ Hl) as (p1 & w1 & W1). pose proof (pw_cc _ _ _ _ _ _ _ _ _ _ _ _ W1) as X.
      unfold concat_of in X. replace (max_chars gsm7 <? len text) with true in X by lia. lia. }
    intros i Hi. destruct (Hall i Hi) as (p & w & W).
    pose proof (pw_ud _ _ _ _ _ _ _ _ _ _ _ _ W) as X. pose proof (pw_udl _ _ _ _ _ _ _ _ _ _ _ _ W) as Y.
    pose proof (pw_cc _ _ _ _ _ _ _ _ _ _ _ _ W) as Z0.
    unfold part_ok, concat_of in *. destruct gsm7; unfold max_chars in *.
    + destruct (160 <? len text); cbn [part_header part_text] in X; inversion X as [hdr t s o Hl Hst E1 E2 E3 E4|]; subst;
        destruct (lib_text_weight _ _ Hl) as (Hw & _).
      * exists (len s). split; auto. rewrite <- E4 in Y. change (len (concat_header _ _ _)) with 6 in Y.
        change (fill_bits 6) with 1 in Y. change ((8 * 6 + 1) / 7) with 7 in Y. lia.
      * split; [destruct Z0; [auto|discriminate]|]. exists (len s). split; auto.
        rewrite <- E4 in Y. change (len (@nil Z)) with 0 in Y. change (fill_bits 0) with 0 in Y. change ((8 * 0 + 0) / 7) with 0 in Y. lia.
    + destruct (70 <? len text); cbn [part_header part_text] in X; inversion X; subst; auto.
  - intros (gsm7 & Hg & Ha & Hs & Hr & Hv & Hc & Hp). unfold encodeSmsSubmitPdu. cbv zeta.
    assert (exists vpo, submit_validity v = Ok (8 * vpf_of v, vpo) /\ match vpo with Some o => octets_ok o | None => True end)
      as (vpo & Ev & Ho).
    { destruct v as [|t|t|]; cbn [validity_encodes submit_validity vpf_of] in *.
      - exists None. auto.
      - destruct (encode_vp_floor t Hv) as (o & -> & Hi & _). exists (Some [o]). split; auto.
        constructor; [unfold in_octet in Hi; lia|constructor].
      - destruct (dt_utcoff t) as [off|] eqn:Eu; [|congruence].
        destruct (encodeTimestamp_total t off (Hpy t eq_refl) Eu) as [o Eo]. rewrite Eo. exists (Some o). split; auto. eapply encodeTimestamp_octets; eauto.
      - tauto. }
    rewrite Ev. cbn [bind].
    assert (submit_alphabet text = Ok (if gsm7 then 0 else 8)) as Ea.
    { unfold submit_alphabet. destruct Hg as [[-> He]|[-> (p & c & q & -> & Hp0 & Hc0 & H255)]].
      - destruct (encode_ok text He false) as (s & -> & _). reflexivity.
      - rewrite encode_first_bad by auto. replace (c =? 255) with false by lia. reflexivity. }
    rewrite Ea. cbn [bind].
    assert (MAX_MESSAGE_LENGTH (if gsm7 then 0 else 8) = max_chars gsm7) as EM by (destruct gsm7; reflexivity).
    rewrite EM. change (Z.of_nat (length text)) with (len text).
    assert (PA : forall fo i, (i < Z.to_nat (pdu_count gsm7 text))%nat ->
      exists p, submit_part number text ref smsc fo (if gsm7 then 0 else 8) vpo fl (concat_of gsm7 text) i = Ok p).
    { intros fo i Hi. apply part_accept; auto; try lia. unfold concat_of.
      destruct (max_chars gsm7 <? len text) eqn:C; [intros _; specialize (Hc ltac:(lia)); lia|congruence]. }
    unfold concat_of, pdu_count in *.
    destruct (max_chars gsm7 <? len text) eqn:C; apply map_res_ok; intros i Hi; apply in_seq in Hi; apply PA; lia.
Qed.
