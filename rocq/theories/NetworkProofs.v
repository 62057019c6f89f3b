(** From one modem to the other. *)
From Verif Require Gsm7Proofs.
From Verif Require Import Base RegexModel DateModel UtilModel PduModel PduSpec SmsSpec SubmitSpec DeliverSpec SeptetProofs FieldProofs TimeProofs AddressProofs SubmitProofs SubmitFinal DecodeProofs DecodeTotal
  ModemCore ModemSpec MonadProofs SmsModel SendSpec SendProofs TrackSpec CoverageSpec StoreSpec StoreProofs ModemFinal NetworkModel NetworkSpec.
From Coq Require Import Permutation.

(** ** The fields of an SMS-SUBMIT *)
Lemma std_phone a d ton o : phone_number a d ton -> encodeAddressField a false = Ok o ->
  std_address a o /\ o = len d :: 128 + 16 * ton + 1 :: semi d /\ type_of_number (nth 1 o 0) = ton.
Proof.
  intros Hp E. pose proof Hp as (Hd & Hne & Ht). rewrite (encode_phone a d ton false Hp) in E.
  binv E l El. apply byte_inv in El as [-> El]. unfold phone_length in *. injection E as <-. cbn [nth].
  assert (ton = 1 \/ ton = 2) as Htn by (destruct Ht as [[_ ->]|[_ ->]]; auto).
  assert (type_of_number (128 + 16 * ton + 1) = ton) as T by (destruct Htn as [->| ->]; reflexivity).
  split; [|auto]. destruct Ht as [[-> ->]|[-> ->]].
  - apply addr_plain; auto; try lia; [unfold in_octet; lia|apply semi_spec; auto].
  - apply addr_international; auto; try lia; [unfold in_octet; lia|apply semi_spec; auto].
Qed.

Lemma address_value a o : std_address a o -> type_of_number (nth 1 o 0) <> 5 -> decodeAddressField o false = Ok ((Some a, len o), []).
Proof.
  intros H T. destruct (decode_std_address' a o H) as (a' & R & D); [intro; contradiction|].
  specialize (D [] ltac:(constructor)). rewrite app_nil_r in D. rewrite D. destruct R; [auto|contradiction].
Qed.
Lemma address_fun a b o : std_address a o -> std_address b o -> type_of_number (nth 1 o 0) <> 5 -> a = b.
Proof. intros H1 H2 T. apply address_value in H1; auto. apply address_value in H2; auto. congruence. Qed.

(** two address fields in front of something *)
Lemma address_prefix a o b o' r r' : std_address a o -> std_address b o' -> type_of_number (nth 1 o 0) <> 5 -> o ++ r = o' ++ r' -> o = o' /\ r = r'.
Proof.
  intros H H' T E. apply app_inv_len; auto.
  assert (nth 0 o 0 = nth 0 o' 0 /\ nth 1 o 0 = nth 1 o' 0) as [E0 E1].
  { assert (forall x, In x [o; o'] -> exists n t v, x = n :: t :: v) as P.
    { intros x [<-|[<-|[]]]; [destruct H|destruct H']; eauto. }
    destruct (P o ltac:(cbn; auto)) as (n & t & v & Po). destruct (P o' ltac:(cbn; auto)) as (n' & t' & v' & Po').
    rewrite Po, Po' in *. cbn in E. injection E as -> -> _. auto. }
  assert (forall c x, std_address c x -> type_of_number (nth 1 x 0) <> 5 -> 2 * (len x - 2) = nth 0 x 0 + nth 0 x 0 mod 2) as L.
  { intros c x [d toa v _ _ _ _ _ _ (_ & L & _)|d toa v _ _ _ _ _ (_ & L & _)|t s v toa _ _ _ _ N _] K; cbn [nth] in *;
      [rewrite !len_cons; lia|rewrite !len_cons; lia|contradiction]. }
  pose proof (L _ _ H T) as L1. rewrite E1 in T. pose proof (L _ _ H' T) as L2. unfold len in *. lia.
Qed.

Lemma fields_of number d ton text ref srr rd fl gsm7 i p w0 to w : phone_number number d ton ->
  part_wire number text ref VNone None srr rd fl gsm7 i p w0 -> submit_of (pdu_data p) to w -> w = w0 /\ to = number.
Proof.
  intros Hp W (D & _ & (smsc & Hs) & Ha & L). destruct W as [Wd _ Ws Wf _ Wa _ _ [_ [_ Wvn]] _ _ _].
  destruct (std_phone _ _ _ _ Hp Wa) as (Ha0 & Eo & T0).
  assert (type_of_number (nth 1 (s_dest w0) 0) <> 5) as T5.
  { rewrite T0. destruct Hp as (_ & _ & [[_ ->]|[_ ->]]); lia. }
  rewrite Wd in D. cbn [smsc_enc] in Ws. specialize (Wvn eq_refl).
  assert (validity_length (s_first w0) = 0) as V0.
  { rewrite Wf. cbn [vpf_of]. unfold validity_length, submit_first. destruct rd, srr, (max_chars gsm7 <? len text); reflexivity. }
  destruct w as [g1 g2 g3 g4 g5 g6 g7 g8 g9], w0 as [f1 f2 f3 f4 f5 f6 f7 f8 f9].
  unfold submit_octets, tpdu_octets in D. cbn [s_smsc s_first s_ref s_dest s_pid s_dcs s_vp s_udl s_ud] in *. subst f1 f7.
  assert (g1 = [0]) as ->.
  { destruct Hs as [|d' toa v _ _ _ _ _ _ _|d' toa v _ _ _ _ _ _]; auto; cbn in D; injection D as D _; pose proof (len_nonneg v); lia. }
  cbn [app] in D. injection D as -> -> D.
  apply (address_prefix _ _ _ _ _ _ Ha0 Ha T5) in D as [<- D]. injection D as -> -> D.
  rewrite V0 in L. destruct g7 as [|x g7]; [|rewrite len_cons in L; pose proof (len_nonneg g7); lia].
  injection D as -> ->. split; [reflexivity|]. eapply address_fun; eauto.
Qed.

(** ** The decoded message *)
Lemma first_udhi rd srr udh : udhi (submit_first rd 0 srr udh) = udh.
Proof. destruct rd, srr, udh; reflexivity. Qed.
Lemma first_mti rd srr udh : mti (submit_first rd 0 srr udh) = 1.
Proof. destruct rd, srr, udh; reflexivity. Qed.

Lemma deliver_decoded number d ton text ref srr rd fl gsm7 i p w0 to from t smsc data : phone_number number d ton -> ~ In 27 text ->
  part_wire number text ref VNone None srr rd fl gsm7 i p w0 -> (i < Z.to_nat (pdu_count gsm7 text))%nat ->
  forwards (pdu_data p) to from t smsc data ->
  to = number /\ octets_ok data /\ exists n udh text', text_received gsm7 (part_fill gsm7 text) (part_of gsm7 i text) text' /\
    decodeSmsPdu_bytes data = Ok (mk_sms smsc n (SmsDeliver (Some from) 0 t udh text')).
Proof.
  intros Hp Hn W Hi F. destruct F as [w smscf first oaf q Sub Hs Hf Hm Hu Ha T5 Ht].
  destruct (fields_of _ _ _ _ _ _ _ _ _ _ _ _ _ _ Hp W Sub) as [-> ->]. split; auto.
  destruct W as [Wd Wt Ws Wf [Wr Hr] Wa Wp Wc _ Wu Wl Wcc].
  assert (exists text', text_received gsm7 (part_fill gsm7 text) (part_of gsm7 i text) text' /\
          exists udh, decodeUserData (s_ud w0) (s_udl w0) (if gsm7 then 0 else 2) (max_chars gsm7 <? len text) = Ok (udh, text'))
    as (text' & Rt & udh & Dt).
  { assert (gsm7 = true -> part_text gsm7 (concat_of gsm7 text) text i <> [] /\ ~ In 27 (part_text gsm7 (concat_of gsm7 text) text i)) as Hpt.
    { intro Hg. apply text_part_ok; auto. intro Hc. rewrite Hc in Wcc. exact Wcc. }
    unfold concat_of, part_fill, part_of in *. destruct (max_chars gsm7 <? len text) eqn:C; cbn [part_header part_text] in *.
    - destruct (decode_ud_concat _ _ _ _ _ _ _ Wu Hpt) as (t' & R & D'). exists t'. split; eauto.
    - destruct (decode_ud_plain _ _ _ _ Wu Hpt) as (t' & R & D'). exists t'. split; eauto. }
  assert (Hud : octets_ok (s_ud w0)).
  { eapply user_data_octets; [exact Wu|]. destruct (concat_of gsm7 text) as [n|]; cbn [part_header]; [|constructor].
    unfold concat_header. repeat (constructor; [lia|]). constructor. }
  pose proof (std_smsc_octets _ _ Hs) as O1. pose proof (std_address_octets _ _ Ha) as O2. pose proof (timestamp_octets _ _ Ht) as O3.
  assert (O4 : octets_ok (timestamp_of t q ++ [s_udl w0] ++ s_ud w0)).
  { apply Forall_app; split; auto. constructor; [lia|auto]. }
  assert (O5 : octets_ok ([s_pid w0; s_dcs w0] ++ timestamp_of t q ++ [s_udl w0] ++ s_ud w0)).
  { rewrite Wp, Wc. constructor; [lia|]. constructor; [unfold data_coding; destruct gsm7, fl; cbn; lia|auto]. }
  assert (O6 : octets_ok ([first] ++ oaf ++ [s_pid w0; s_dcs w0] ++ timestamp_of t q ++ [s_udl w0] ++ s_ud w0)).
  { constructor; [lia|]. apply Forall_app; auto. }
  split; [apply Forall_app; auto|].
  eexists _, udh, text'. split; [exact Rt|].
  destruct (decode_std_address' from oaf Ha) as (from' & R & Da); [intro; contradiction|]. destruct R as [_|? ? ? ? ?]; [|contradiction].
  unfold decodeSmsPdu_bytes. cbv zeta. unfold deliver_octets at 1. rewrite (decode_std_smsc _ _ _ Hs). cbn [bind app next].
  destruct (first_bits first Hf) as [-> ->]. rewrite Hm. change (0 =? 0) with true. cbv iota.
  change (oaf ++ s_pid w0 :: s_dcs w0 :: timestamp_of t q ++ s_udl w0 :: s_ud w0) with (oaf ++ ([s_pid w0; s_dcs w0] ++ timestamp_of t q ++ [s_udl w0] ++ s_ud w0)).
  rewrite Da by auto. cbn [bind app next]. unfold timestamp_of at 1.
  rewrite (decodeTimestamp_ok t q _ Ht). cbn [bind next]. rewrite Wc, dcs_decode, Hu, Wf. cbn [vpf_of]. rewrite first_udhi, Dt. cbn [bind].
  rewrite Wp. reflexivity.
Qed.

Lemma read_delivered number d ton text ref srr rd fl gsm7 i p w0 to from t smsc data stat content : phone_number number d ton -> ~ In 27 text ->
  part_wire number text ref VNone None srr rd fl gsm7 i p w0 -> (i < Z.to_nat (pdu_count gsm7 text))%nat ->
  forwards (pdu_data p) to from t smsc data -> stored_as data stat content ->
  to = number /\ exists text', text_received gsm7 (part_fill gsm7 text) (part_of gsm7 i text) text' /\
    reads_as false content (Received stat (Some from) t text' smsc).
Proof.
  intros Hp Hn W Hi F (head & hex & -> & Hh & Hx).
  destruct (deliver_decoded _ _ _ _ _ _ _ _ _ _ _ _ _ _ _ _ _ Hp Hn W Hi F) as (-> & O & n & udh & text' & R & D). split; auto.
  exists text'. split; auto.
  eapply ra_pdu; [exact Hh| |].
  - unfold decodeSmsPdu. rewrite (hex_text_unhex _ _ Hx). exact D.
  - exact (mo_deliver stat (mk_sms smsc n (SmsDeliver (Some from) 0 t udh text')) _ _ _ _ _ eq_refl).
Qed.

(** ** From sendSms to the callback *)
Lemma sent_parts number text fl wt m sc obj w : smsTextMode m = false -> sendSms number text fl wt (start m sc) = Done (Ok obj) w ->
  exists pdus answer, encodeSmsSubmitPdu number text (smsRef m) VNone None true false fl = Ok pdus /\ transmits pdus (trace w) (Ok answer).
Proof.
  intros T H. destruct (encodeSmsSubmitPdu number text (smsRef m) VNone None true false fl) as [pdus|e] eqn:E.
  - pose proof (sends_parts number text fl wt (start m sc) pdus T E) as P. rewrite H in P. destruct P as (evs & y & Tr & Tm & Fa).
    cbn [start trace app] in Tr. subst evs. destruct y as [answer|e].
    + exists pdus, answer. auto.
    + exfalso. inversion Fa.
  - pose proof (SendProofs.send_unencodable number text fl wt (start m sc) e T E). congruence.
Qed.

Lemma end_to_end number d ton text fl wt m1 sc1 obj w1 gsm7 : phone_number number d ton -> ~ In 27 text -> uses_gsm7 text gsm7 ->
  smsTextMode m1 = false -> sendSms number text fl wt (start m1 sc1) = Done (Ok obj) w1 ->
  exists pdus answer, transmits pdus (trace w1) (Ok answer) /\ len pdus = pdu_count gsm7 text /\
    forall i p, nth_error pdus i = Some p -> (exists w, submit_of (pdu_data p) number w) /\
    forall to from t smsc data stat content, forwards (pdu_data p) to from t smsc data -> stored_as data stat content ->
      to = number /\ exists text', text_received gsm7 (part_fill gsm7 text) (part_of gsm7 i text) text' /\
      reads_as false content (Received stat (Some from) t text' smsc) /\
      forall m2 d2 mem ds line sc2 w2 d2', in_sync m2 d2 -> smsTextMode m2 = false -> indication (lit "+CMTI:") mem ds line ->
        stored d2 mem (dec_value ds) = Some content ->
        handleSmsReceived line (start m2 sc2) = Done (Ok tt) w2 -> plays d2 (trace w2) d2' ->
        passed (trace w2) = [Received stat (Some from) t text' smsc] /\ stored d2' mem (dec_value ds) = None.
Proof.
  intros Hp Hn Hg T H. destruct (sent_parts _ _ _ _ _ _ _ _ T H) as (pdus & answer & E & Tm).
  destruct (encode_wires _ _ _ _ _ _ _ _ _ E) as (g & _ & Hg' & HL & HN). pose proof (uses_gsm7_fun _ _ _ Hg Hg') as <-.
  exists pdus, answer. split; auto. split; auto. intros i p Hi. destruct (HN i p Hi) as (Hlt & w0 & W). split.
  - exists w0. destruct W as [Wd _ Ws Wf _ Wa _ _ [_ [_ Wvn]] _ _ _]. split; [exact Wd|]. split; [rewrite Wf; apply first_mti|].
    split; [exists None; rewrite Ws; constructor|]. split; [apply (std_phone _ _ _ _ Hp Wa)|]. rewrite (Wvn eq_refl), Wf. cbn [vpf_of].
    destruct (max_chars gsm7 <? len text); reflexivity.
  - intros to from t smsc data stat content F St.
    destruct (read_delivered _ _ _ _ _ _ _ _ _ _ _ _ _ _ _ _ _ _ _ Hp Hn W Hlt F St) as (-> & text' & R & Ra). split; auto.
    exists text'. split; auto. split; auto. intros m2 d2 mem ds line sc2 w2 d2' Sy T2 I C Hh Pl.
    destruct (notification _ _ _ _ _ _ _ _ _ Sy I Hh Pl) as (_ & _ & (s & content' & evs & Tr & Pe & _ & C' & (Ha & _) & St')).
    rewrite C in C'. injection C' as <-. rewrite T2 in Ha. apply Ha in Ra as <-. split.
    + rewrite Tr. unfold passed. rewrite flat_map_app. fold (passed evs). rewrite Pe. reflexivity.
    + rewrite St'. unfold put, same_cell. rewrite (proj2 (Gsm7Proofs.str_eqb_eq mem mem) eq_refl), Z.eqb_refl. reflexivity.
Qed.

(** all parts, in order *)
Lemma received_same gsm7 fill t t' : (gsm7 = true -> ~ In 64 t) -> text_received gsm7 fill t t' -> t' = t.
Proof.
  unfold text_received. destruct gsm7; auto. intros H [n W D|n W D]; auto.
  unfold drops_final_at in D. apply andb_true_iff in D as [_ D]. apply Z.eqb_eq in D. exfalso. apply H; auto.
  destruct t as [|c t]; [discriminate|]. rewrite <- D. destruct (exists_last (l := c :: t)) as (l & x & ->); [discriminate|].
  rewrite last_last. apply in_or_app. right. left. reflexivity.
Qed.
Lemma pieces gsm7 text : whole gsm7 text ->
  List.concat (map (fun i => part_of gsm7 i text) (seq 0 (Z.to_nat (pdu_count gsm7 text)))) = text.
Proof.
  intros (Hw & _). unfold part_of. destruct (max_chars gsm7 <? len text) eqn:C.
  - rewrite chunks_concat. apply firstn_all2. specialize (Hw ltac:(lia)). unfold len in *.
    assert (0 <= pdu_count gsm7 text). { unfold pdu_count, max_chars. unfold len. destruct gsm7, (_ <? _); lia. }
    nia.
  - unfold pdu_count. rewrite C. cbn. apply app_nil_r.
Qed.
Lemma list_eq2 {A} (a b : list A) : Forall2 eq a b -> a = b.
Proof. induction 1; congruence. Qed.
Lemma reassembled gsm7 text received : whole gsm7 text -> len received = pdu_count gsm7 text ->
  (forall i t', nth_error received i = Some t' -> text_received gsm7 (part_fill gsm7 text) (part_of gsm7 i text) t') -> List.concat received = text.
Proof.
  intros Hw L H. transitivity (List.concat (map (fun i => part_of gsm7 i text) (seq 0 (Z.to_nat (pdu_count gsm7 text))))); [f_equal|apply pieces; auto].
  assert (length received = Z.to_nat (pdu_count gsm7 text)) as L' by (unfold len in L; lia). rewrite <- L'.
  assert (forall i t', nth_error received i = Some t' -> t' = part_of gsm7 i text) as E.
  { intros i t' Hi. apply (received_same gsm7 (part_fill gsm7 text)); auto. intros Hg Hi'. destruct Hw as (_ & Hw). apply Hw; auto.
    unfold part_of in Hi'. destruct (_ <? _); auto. eapply slice_in; eauto. }
  apply list_eq2, Forall2_nth. auto.
Qed.

(** the objects handed out do not tell the parts apart *)
Lemma text_received_fun gsm7 fill t t1 t2 : text_received gsm7 fill t t1 -> text_received gsm7 fill t t2 -> t1 = t2.
Proof. unfold text_received. destruct gsm7; [apply gsm7_received_fun|congruence]. Qed.
Lemma order_lost number d ton text fl ref gsm7 pdus i p j p' from t smsc data data' to to' stat content content' s s' :
  phone_number number d ton -> ~ In 27 text -> uses_gsm7 text gsm7 ->
  encodeSmsSubmitPdu number text ref VNone None true false fl = Ok pdus ->
  nth_error pdus i = Some p -> nth_error pdus j = Some p' -> part_of gsm7 i text = part_of gsm7 j text ->
  forwards (pdu_data p) to from t smsc data -> forwards (pdu_data p') to' from t smsc data' ->
  stored_as data stat content -> stored_as data' stat content' ->
  handed_as false content s -> handed_as false content' s' -> s = s'.
Proof.
  intros Hp Hn Hg E Hi Hj Eq F F' St St' (Ha & _) (Ha' & _).
  destruct (encode_wires _ _ _ _ _ _ _ _ _ E) as (g & _ & Hg' & HL & HN). pose proof (uses_gsm7_fun _ _ _ Hg Hg') as <-.
  destruct (HN i p Hi) as (Hlt & w0 & W). destruct (HN j p' Hj) as (Hlt' & w0' & W').
  destruct (read_delivered _ _ _ _ _ _ _ _ _ _ _ _ _ _ _ _ _ _ _ Hp Hn W Hlt F St) as (_ & x & R & Ra).
  destruct (read_delivered _ _ _ _ _ _ _ _ _ _ _ _ _ _ _ _ _ _ _ Hp Hn W' Hlt' F' St') as (_ & x' & R' & Ra').
  apply Ha in Ra as <-. apply Ha' in Ra' as <-. rewrite Eq in R. rewrite (text_received_fun _ _ _ _ _ R R'). reflexivity.
Qed.

Lemma same_part number d ton text fl ref i text' fl' ref' j gsm7 from t smsc stat s s' :
  phone_number number d ton -> ~ In 27 text -> ~ In 27 text' -> uses_gsm7 text gsm7 -> uses_gsm7 text' gsm7 ->
  part_fill gsm7 text = part_fill gsm7 text' -> part_of gsm7 i text = part_of gsm7 j text' ->
  part_received number text ref fl i from t smsc stat s -> part_received number text' ref' fl' j from t smsc stat s' -> s = s'.
Proof.
  intros Hp Hn Hn' Hg Hg' Ef Eq (pdus & p & to & data & content & E & Hi & F & St & Ha & _) (pdus' & p' & to' & data' & content' & E' & Hj & F' & St' & Ha' & _).
  destruct (encode_wires _ _ _ _ _ _ _ _ _ E) as (g & _ & G & HL & HN). pose proof (uses_gsm7_fun _ _ _ Hg G) as <-.
  destruct (encode_wires _ _ _ _ _ _ _ _ _ E') as (g' & _ & G' & HL' & HN'). pose proof (uses_gsm7_fun _ _ _ Hg' G') as <-.
  destruct (HN i p Hi) as (Hlt & w0 & W). destruct (HN' j p' Hj) as (Hlt' & w0' & W').
  destruct (read_delivered _ _ _ _ _ _ _ _ _ _ _ _ _ _ _ _ _ _ _ Hp Hn W Hlt F St) as (_ & x & R & Ra).
  destruct (read_delivered _ _ _ _ _ _ _ _ _ _ _ _ _ _ _ _ _ _ _ Hp Hn' W' Hlt' F' St') as (_ & x' & R' & Ra').
  apply Ha in Ra as <-. apply Ha' in Ra' as <-. rewrite Eq, Ef in R. rewrite (text_received_fun _ _ _ _ _ R R'). reflexivity.
Qed.
Lemma two_length {A B} (R : A -> B -> Prop) a b : Forall2 R a b -> length a = length b.
Proof. induction 1; cbn [length]; congruence. Qed.
Lemma two_at {A B} (R : A -> B -> Prop) a b : Forall2 R a b -> forall k x y, nth_error a k = Some x -> nth_error b k = Some y -> R x y.
Proof. induction 1 as [|x y a b H F IH]; intros [|k] x0 y0 E1 E2; try discriminate; cbn in *; [congruence|eauto]. Qed.
Lemma pointwise {A} (a b : list A) : length a = length b -> (forall k x y, nth_error a k = Some x -> nth_error b k = Some y -> x = y) -> a = b.
Proof.
  revert b. induction a as [|x a IH]; intros [|y b] L H; try discriminate; auto. f_equal; [exact (H 0%nat x y eq_refl eq_refl)|]. apply IH; [cbn in L; lia|]. intros k. exact (H (S k)).
Qed.
Lemma full_length k ps : Forall (fun p : str => length p = k) ps -> length (List.concat ps) = (length ps * k)%nat.
Proof. induction 1 as [|p ps E H IH]; [reflexivity|]. cbn [List.concat length]. rewrite app_length, IH, E. lia. Qed.
Lemma full_chunk k : forall ps i, Forall (fun p : str => length p = k) ps -> (i < length ps)%nat -> chunk k i (List.concat ps) = nth i ps [].
Proof.
  unfold chunk. induction ps as [|p ps IH]; intros i H L; [cbn in L; lia|]. inversion H as [|? ? E H']; subst. cbn [List.concat]. destruct i as [|i].
  - cbn [Nat.mul skipn nth]. rewrite firstn_app, firstn_all, Nat.sub_diag, firstn_O, app_nil_r. reflexivity.
  - cbn [nth]. replace (S i * length p)%nat with (length p + i * length p)%nat by lia. rewrite skipn_app, skipn_all2 by lia. cbn [app].
    replace (length p + i * length p - length p)%nat with (i * length p)%nat by lia. apply IH; auto. cbn [length] in L. lia.
Qed.
Theorem no_reassembly number d ton fl fl' ref ref' gsm7 ps order from t smsc stat objs objs' :
  let ps' := map (fun i => nth i ps []) order in
  phone_number number d ton -> ~ In 27 (List.concat ps) -> uses_gsm7 (List.concat ps) gsm7 -> uses_gsm7 (List.concat ps') gsm7 ->
  (2 <= length ps)%nat -> Forall (fun p => length p = part_chars gsm7) ps -> Permutation order (seq 0 (length ps)) ->
  Forall2 (fun i s => part_received number (List.concat ps) ref fl i from t smsc stat s) order objs ->
  Forall2 (fun i s => part_received number (List.concat ps') ref' fl' i from t smsc stat s) (seq 0 (length ps)) objs' ->
  objs = objs' /\ (List.concat ps <> List.concat ps' -> forall f : list stored_sms -> str, f objs = List.concat ps -> f objs' <> List.concat ps').
Proof.
  intros ps' Hp Hn Hg Hg' L Hk Hq H1 H2.
  assert (Hi : forall i, In i order -> (i < length ps)%nat) by (intros i I; apply (Permutation_in _ Hq) in I; apply in_seq in I; lia).
  assert (Lo : length order = length ps) by (rewrite (Permutation_length Hq); apply seq_length).
  assert (Hk' : Forall (fun p => length p = part_chars gsm7) ps').
  { apply Forall_forall. intros x I. apply in_map_iff in I as (i & <- & I). rewrite Forall_forall in Hk. apply Hk, nth_In. auto. }
  assert (Lp : length ps' = length ps) by (unfold ps'; rewrite map_length; auto).
  assert (Hn' : ~ In 27 (List.concat ps')).
  { intro I. apply Hn. apply in_concat in I as (x & I & J). apply in_concat. exists x. split; auto. apply in_map_iff in I as (i & <- & I). apply nth_In. auto. }
  assert (Big : forall qs, Forall (fun p : str => length p = part_chars gsm7) qs -> length qs = length ps -> (max_chars gsm7 <? len (List.concat qs)) = true).
  { intros qs F E. apply Z.ltb_lt. unfold len. rewrite (full_length _ _ F), E. unfold part_chars, max_chars. destruct gsm7; lia. }
  assert (X : objs = objs').
  { assert (Lx : length objs = length objs') by (apply two_length in H1, H2; rewrite seq_length in H2; lia).
    apply pointwise; auto. intros k s s' E1 E2. assert (Lk : (k < length ps)%nat) by (apply two_length in H1; rewrite <- Lo, H1; apply nth_error_Some; congruence).
    destruct (nth_error order k) as [i|] eqn:Eo; [|apply nth_error_None in Eo; lia].
    pose proof (two_at _ _ _ H1 k i s Eo E1) as R1. cbv beta in R1.
    assert (R2 : part_received number (List.concat ps') ref' fl' k from t smsc stat s').
    { apply (two_at _ _ _ H2 k k s'); [|exact E2]. rewrite (nth_error_nth' _ 0%nat) by (rewrite seq_length; auto). rewrite seq_nth by auto. reflexivity. }
    eapply (same_part number d ton); [exact Hp|exact Hn|exact Hn'|exact Hg|exact Hg'| | |exact R1|exact R2].
    - unfold part_fill. rewrite !Big; auto.
    - unfold part_of. rewrite !Big by auto. rewrite (full_chunk _ ps i Hk) by (apply Hi; eapply nth_error_In; eauto). rewrite (full_chunk _ ps' k Hk') by exact (eq_ind_r (fun n => (k < n)%nat) Lk Lp).
      unfold ps'. symmetry. apply nth_error_nth. rewrite nth_error_map, Eo. reflexivity. }
  split; auto. intros N f E1 E2. congruence.
Qed.

(** ** Replies *)
Lemma sender_phone from oaf : std_address from oaf -> type_of_number (nth 1 oaf 0) <> 5 ->
  exists d toa, phone_number from d (if type_of_number toa =? 1 then 1 else 2) /\ oaf = len d :: toa :: semi d.
Proof.
  intros [d toa v Hd Hne L Ht H1 H5 Hv|d toa v Hd Hne L Ht H1 Hv|t s v toa _ _ _ _ N _] T; cbn [nth] in *.
  - exists d, toa. rewrite <- (semi_unique d v Hd Hv). split; auto. replace (type_of_number toa =? 1) with false by lia. repeat split; auto.
  - exists d, toa. rewrite <- (semi_unique d v Hd Hv). split; auto. rewrite H1. repeat split; auto.
  - contradiction.
Qed.

Lemma addressed number d ton text fl ref pdus i p : phone_number number d ton ->
  encodeSmsSubmitPdu number text ref VNone None true false fl = Ok pdus -> nth_error pdus i = Some p ->
  (exists w, submit_of (pdu_data p) number w) /\
  forall to w, submit_of (pdu_data p) to w -> to = number /\ s_dest w = len d :: 128 + 16 * ton + 1 :: semi d.
Proof.
  intros Hp E Hi. destruct (encode_wires _ _ _ _ _ _ _ _ _ E) as (g & _ & _ & _ & HN). destruct (HN i p Hi) as (Hlt & w0 & W).
  pose proof W as [Wd _ Ws Wf _ Wa _ _ [_ [_ Wvn]] _ _ _]. split.
  - exists w0. split; [exact Wd|]. split; [rewrite Wf; apply first_mti|].
    split; [exists None; rewrite Ws; constructor|]. split; [apply (std_phone _ _ _ _ Hp Wa)|]. rewrite (Wvn eq_refl), Wf. cbn [vpf_of].
    destruct (max_chars g <? len text); reflexivity.
  - intros to w Sub. destruct (fields_of _ _ _ _ _ _ _ _ _ _ _ _ _ _ Hp W Sub) as [-> ->]. split; auto.
    apply (std_phone _ _ _ _ Hp Wa).
Qed.

Lemma reply_sent from oaf stat t text smsc message m sc obj w : std_address from oaf -> type_of_number (nth 1 oaf 0) <> 5 ->
  smsTextMode m = false -> reply (Received stat (Some from) t text smsc) message (start m sc) = Done (Ok obj) w ->
  exists pdus answer, transmits pdus (trace w) (Ok answer) /\ pdus <> [] /\
    forall i p, nth_error pdus i = Some p -> (exists f, submit_of (pdu_data p) from f) /\
      forall to f, submit_of (pdu_data p) to f -> to = from /\ reply_field oaf (s_dest f).
Proof.
  intros Ha T5 T H. cbn [reply] in H. destruct (sent_parts _ _ _ _ _ _ _ _ T H) as (pdus & answer & E & Tm).
  exists pdus, answer. split; auto. split.
  { destruct (encode_wires _ _ _ _ _ _ _ _ _ E) as (g & _ & _ & HL & _). intros ->. change (len (@nil pdu)) with 0 in HL.
    unfold pdu_count, len in HL. pose proof (Zle_0_nat (length message)). destruct g; unfold max_chars in HL; destruct (_ <? _); lia. }
  intros i p Hi. destruct (sender_phone from oaf Ha T5) as (d & toa & Hp & ->).
  destruct (addressed _ _ _ _ _ _ _ _ _ Hp E Hi) as (A & B). split; auto. intros to f Sub. destruct (B to f Sub) as (-> & ->). split; auto.
  exists (len d), toa, (128 + 16 * (if type_of_number toa =? 1 then 1 else 2) + 1), (semi d). repeat split. destruct (_ =? 1); reflexivity.
Qed.
Lemma reply_to_digits a d ton stat t text smsc message m sc obj w : phone_number a d ton ->
  smsTextMode m = false -> reply (Received stat (Some a) t text smsc) message (start m sc) = Done (Ok obj) w ->
  exists pdus answer, transmits pdus (trace w) (Ok answer) /\
    forall i p to f, nth_error pdus i = Some p -> submit_of (pdu_data p) to f -> to = a /\ type_of_number (nth 1 (s_dest f) 0) = ton.
Proof.
  intros Hp T H. cbn [reply] in H. destruct (sent_parts _ _ _ _ _ _ _ _ T H) as (pdus & answer & E & Tm).
  exists pdus, answer. split; auto. intros i p to f Hi Sub. destruct (addressed _ _ _ _ _ _ _ _ _ Hp E Hi) as (_ & B). destruct (B to f Sub) as (-> & ->).
  split; auto. cbn [nth]. destruct Hp as (_ & _ & [[_ ->]|[_ ->]]); reflexivity.
Qed.
Lemma reply_text number stat t text smsc message m sc x w : smsTextMode m = true ->
  reply (Received stat (Some number) t text smsc) message (start m sc) = Done x w ->
  exists y, final_answer y x /\
    ((exists e, y = Err e /\ exchange (lit "AT+CMGS=""" ++ number ++ lit """") [13] (trace w) y) \/
     exists a1 e1 e2, trace w = e1 ++ e2 /\ exchange (lit "AT+CMGS=""" ++ number ++ lit """") [13] e1 (Ok a1) /\ exchange message [26] e2 y).
Proof.
  intros T H. cbn [reply] in H. pose proof (send_text_mode number message false false (start m sc) T) as P. rewrite H in P.
  destruct P as (evs & y & Tr & C & Ex). cbn [start trace app] in Tr. subst evs. exists y. split; auto. eapply concluded_final; eauto.
Qed.
Lemma reply_none stat t text smsc message m sc : 
  (smsTextMode m = false -> exists e, reply (Received stat None t text smsc) message (start m sc) = Done (Err e) (start m sc)) /\
  (smsTextMode m = true -> forall x w, reply (Received stat None t text smsc) message (start m sc) = Done x w ->
     exists e1 e2 y, trace w = e1 ++ e2 /\ exchange (lit "AT+CMGS=""None""") [13] e1 y).
Proof.
  cbn [reply]. unfold mbind at 1 3, get. cbn [start dev]. split; intro T; rewrite T.
  - unfold encode_to_None. cbv zeta. unfold lift, mbind.
    destruct (submit_alphabet message) as [al|e]; cbn [bind]; eauto.
    match goal with |- context [bind ?c _] => destruct c as [h|e] end; cbn [bind]; eauto.
    destruct (byte (smsRef m)) as [b|e]; cbn [bind]; eauto.
  - intros x w H. pose proof (send_text_mode (lit "None") message false false (start m sc) T) as P. rewrite H in P.
    destruct P as (evs & y & Tr & C & [(e & -> & Ex)|(a1 & e1 & e2 & -> & Ex & _)]); cbn [start trace app] in Tr.
    + exists evs, [], (Err e). rewrite app_nil_r. auto.
    + exists e1, e2, (Ok a1). auto.
Qed.
Lemma reply_answered from oaf stat t text smsc message m sc obj w gsm7 : std_address from oaf -> type_of_number (nth 1 oaf 0) <> 5 ->
  ~ In 27 message -> uses_gsm7 message gsm7 ->
  smsTextMode m = false -> reply (Received stat (Some from) t text smsc) message (start m sc) = Done (Ok obj) w ->
  exists pdus answer, transmits pdus (trace w) (Ok answer) /\ len pdus = pdu_count gsm7 message /\
    forall i p to own t2 smsc2 data stat2 content, nth_error pdus i = Some p -> forwards (pdu_data p) to own t2 smsc2 data -> stored_as data stat2 content ->
      to = from /\ exists message', text_received gsm7 (part_fill gsm7 message) (part_of gsm7 i message) message' /\
      reads_as false content (Received stat2 (Some own) t2 message' smsc2).
Proof.
  intros Ha T5 Hn Hg T H. cbn [reply] in H. destruct (sender_phone from oaf Ha T5) as (d & toa & Hp & _).
  destruct (end_to_end _ _ _ _ _ _ _ _ _ _ _ Hp Hn Hg T H) as (pdus & answer & Tm & L & P). exists pdus, answer. split; auto. split; auto.
  intros i p to own t2 smsc2 data stat2 content Hi F St. destruct (P i p Hi) as (_ & P'). destruct (P' _ _ _ _ _ _ _ F St) as (-> & text' & R & Ra & _). eauto.
Qed.
