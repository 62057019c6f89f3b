From Verif Require Import Base DateModel PduModel PduSpec SmsSpec SubmitSpec DeliverSpec FieldProofs Gsm7Proofs SeptetProofs AddressProofs SubmitProofs
  RegexModel RegexProofs TrieProofs UtilModel UtilProofs SerialProofs ModemCore ModemSpec WriteProofs MonadProofs SmsModel SendSpec.

(** ** The octets of the PDUs *)
Lemma address_octets a sm o : encodeAddressField a sm = Ok o -> octets_ok o.
Proof.
  intros E. assert (a <> []) as Hne by (intros ->; discriminate).
  destruct (phone_or_alpha a Hne) as [(d & ton & Hp)|Ha].
  - pose proof Hp as (Hd & Hdn & Ht).
    assert (ton = 1 \/ ton = 2) as Htn by (destruct Ht as [[_ ->]|[_ ->]]; auto).
    rewrite (encode_phone a d ton sm Hp) in E. binv E l El. apply byte_inv in El as [-> El]. injection E as <-.
    constructor; [lia|]. constructor; [lia|]. apply semi_octets_ok; auto.
  - rewrite (encode_alpha a sm Ha) in E. binv E s Es. binv E v Ev. binv E l El.
    apply byte_inv in El as [-> El]. injection E as <-.
    destruct (encode_ok a (encode_ok_inv _ _ Es) false) as (r & E' & Hs & _). rewrite Es in E'. injection E' as <-.
    pose proof (encode_nonempty _ _ Es Hne) as Hse.
    destruct (packSeptets_spec s 0 Hs ltac:(lia) ltac:(auto)) as (v' & E' & Hv). rewrite Ev in E'. injection E' as <-.
    change (fill_of_pad 0) with 0 in Hv. constructor; [lia|]. constructor; [lia|]. apply Hv.
Qed.
Lemma pdus_fine number text ref fl pdus : encodeSmsSubmitPdu number text ref VNone None true false fl = Ok pdus ->
  pdus <> [] /\ Forall (fun p => octets_ok (pdu_data p) /\ 0 <= pdu_tpduLength p) pdus.
Proof.
  intro E. destruct (encode_wires _ _ _ _ _ _ _ _ _ E) as (g & Hv & Hg & HL & HN). split.
  - intros ->. unfold len, pdu_count in HL. cbn in HL. destruct (_ <? _); [|discriminate].
    assert (0 <= len text / max_chars g). { apply Z.div_pos; [unfold len; lia|destruct g; cbn; lia]. } unfold len in *. lia.
  - apply Forall_forall. intros p Hp. apply In_nth_error in Hp as [i Hi]. apply HN in Hi as [Hi [w W]]. destruct W.
    assert (O : octets_ok (submit_octets w)).
    { unfold submit_octets, tpdu_octets. cbn in pw_smsc. rewrite pw_smsc.
      destruct pw_ref as [-> R].
      assert (octets_ok (s_ud w)).
      { eapply user_data_octets; [apply pw_ud|]. unfold part_header. destruct (concat_of g text); [|constructor].
        destruct pw_cc. unfold concat_header. repeat constructor; lia. }
      apply Forall_app; split; [constructor; [lia|constructor]|].
      apply Forall_app; split.
      { rewrite pw_first. constructor; [|constructor; [lia|constructor]].
        destruct (max_chars g <? len text), (vpf_cases VNone) as [->|[->| ->]]; vm_compute; intuition congruence. }
      apply Forall_app; split; [eapply address_octets; eauto|].
      apply Forall_app; split.
      { rewrite pw_pid, pw_dcs. constructor; [lia|]. constructor; [|constructor]. destruct g, fl; vm_compute; intuition congruence. }
      apply Forall_app; split; [apply pw_vp|]. constructor; auto. }
    rewrite pw_data, pw_tlen. split; auto. unfold submit_octets, tpdu_octets, len. rewrite !app_length. cbn [length]. lia.
Qed.
Lemma pdu_str_hex o : octets_ok o -> hex_text o (pdu_str o).
Proof.
  induction 1 as [|b o Hb _ IH]; [constructor|]. cbn [pdu_str flat_map app]. fold (pdu_str o).
  assert (H : forall x, 0 <= x < 16 -> hex_of x (hexdigit_upper x)).
  { intros x Hx. unfold hex_of, hexdigit_upper. destruct (Z.ltb_spec x 10); lia. }
  constructor; auto; apply H.
  - split; [apply Z.div_pos; lia|apply Z.div_lt_upper_bound; lia].
  - apply Z.mod_pos_bound. lia.
Qed.

(** ** int() *)
Lemma int_digits_inv s : forall acc v, int_digits 10 acc s = Some v ->
  Forall (fun c => is_digit c = true) s /\ v = fold_left (fun a c => 10 * a + (c - 48)) s acc.
Proof.
  induction s as [|c s IH]; intros acc v H; cbn [int_digits fold_left] in *; [injection H as <-; auto|].
  unfold hexval in H. destruct ((48 <=? c) && (c <=? 57)) eqn:D.
  - destruct (c - 48 <? 10); [|discriminate]. apply IH in H as [F ->]. split; [constructor; auto|]. f_equal. lia.
  - destruct ((65 <=? c) && (c <=? 70)) eqn:D2.
    + apply andb_prop in D2 as [D1 D2]. apply Z.leb_le in D1, D2. destruct (Z.ltb_spec (c - 55) 10); [lia|discriminate].
    + destruct ((97 <=? c) && (c <=? 102)) eqn:D3; [|discriminate].
      apply andb_prop in D3 as [D3 D4]. apply Z.leb_le in D3, D4. destruct (Z.ltb_spec (c - 87) 10); [lia|discriminate].
Qed.
Lemma int_body_inv s v : int_body 10 s = Ok v <-> digits s /\ v = dec_value s.
Proof.
  split.
  - destruct s as [|c s]; [discriminate|]. unfold int_body. destruct (int_digits 10 0 (c :: s)) eqn:E; [|discriminate].
    intros [= <-]. apply int_digits_inv in E as [F ->]. split; [split; [discriminate|auto]|auto].
  - intros [[N F] ->]. destruct s; [congruence|]. unfold int_body. rewrite int_digits_value by auto. auto.
Qed.
Lemma lstrip_split s : exists a, s = a ++ lstrip s /\ blank a /\ starts_outside is_space (lstrip s).
Proof.
  induction s as [|c s (a & E & B & O)]; [exists []; repeat split; constructor|]. cbn [lstrip]. destruct (is_space c) eqn:S.
  - exists (c :: a). split; [cbn; f_equal; auto|]. split; [constructor; auto|auto].
  - exists []. split; auto. split; [constructor|cbn; auto].
Qed.
Lemma lstrip_app a s : blank a -> starts_outside is_space s -> lstrip (a ++ s) = s.
Proof.
  induction 1 as [|c a Hc _ IH]; intro O; cbn [app lstrip].
  - destruct s; auto. cbn in O |- *. rewrite O. auto.
  - rewrite Hc. auto.
Qed.
Lemma strip_split s : exists a b, s = a ++ strip s ++ b /\ blank a /\ blank b.
Proof.
  unfold strip. destruct (lstrip_split s) as (a & E & B & _). destruct (lstrip_split (rev (lstrip s))) as (b & E2 & B2 & _).
  exists a, (rev b). split; [|split; [auto|apply Forall_rev; auto]].
  rewrite E at 1. f_equal. rewrite <- rev_app_distr, <- E2, rev_involutive. auto.
Qed.
Lemma strip_app a t b : blank a -> blank b -> starts_outside is_space t -> starts_outside is_space (rev t) -> t <> [] -> strip (a ++ t ++ b) = t.
Proof.
  intros A B O1 O2 N. unfold strip. rewrite lstrip_app; auto.
  - rewrite rev_app_distr, lstrip_app by (auto; apply Forall_rev; auto). apply rev_involutive.
  - destruct t; [congruence|auto].
Qed.
Lemma digits_outside ds : digits ds -> starts_outside is_space ds /\ starts_outside is_space (rev ds).
Proof.
  intros [N F]. split.
  - destruct ds; [congruence|]. inversion F; subst. cbn. apply digit_not_space. auto.
  - apply Forall_rev in F. destruct (rev ds); [exact I|]. inversion F; subst. cbn. apply digit_not_space. auto.
Qed.
Lemma rev_sign_outside c ds : digits ds -> starts_outside is_space (rev (c :: ds)).
Proof.
  intros D. destruct (digits_outside ds D) as [_ O]. cbn [rev]. destruct (rev ds) eqn:E; [|exact O].
  destruct D as [N _]. apply (f_equal (@length Z)) in E. rewrite rev_length in E. destruct ds; [congruence|discriminate].
Qed.
Lemma py_int_iff s n : py_int 10 s = Ok n <-> number_text n s.
Proof.
  rewrite py_int_eq. split.
  - destruct (strip_split s) as (a & b & E & A & B). intro H. rewrite E. destruct (strip s) as [|c t]; [discriminate|].
    destruct (Z.eqb_spec c 43) as [->|N].
    + apply int_body_inv in H as [D ->]. cbn. apply nt_plus; auto.
    + destruct (Z.eqb_spec c 45) as [->|N2].
      * destruct (int_body 10 t) as [v|] eqn:V; cbn [bind] in H; [|discriminate]. injection H as <-.
        apply int_body_inv in V as [D ->]. cbn. apply nt_minus; auto.
      * apply int_body_inv in H as [D ->]. apply nt; auto.
  - intros [ds a b D A B|ds a b D A B|ds a b D A B].
    + destruct (digits_outside ds D). rewrite strip_app; auto; [|apply D]. destruct ds as [|c ds]; [destruct D; congruence|].
      pose proof D as [_ F]. inversion F as [|? ? Hc _]; subst. apply digit_range in Hc.
      destruct (Z.eqb_spec c 43); [lia|]. destruct (Z.eqb_spec c 45); [lia|]. apply int_body_inv. auto.
    + change (a ++ 43 :: ds ++ b) with (a ++ (43 :: ds) ++ b). rewrite strip_app; auto; [|reflexivity|apply rev_sign_outside; auto|discriminate].
      cbn. apply int_body_inv. auto.
    + change (a ++ 45 :: ds ++ b) with (a ++ (45 :: ds) ++ b). rewrite strip_app; auto; [|reflexivity|apply rev_sign_outside; auto|discriminate].
      cbn. rewrite (proj2 (int_body_inv ds (dec_value ds))) by auto. auto.
Qed.

(** ** The "+CMGS:" line *)
Lemma starts_with_iff p l : startswith l p = true <-> starts_with p l.
Proof. apply startswith_app. Qed.
Lemma first_line_iff p ls : match lineStartingWith p ls with
  | Some l => exists before after, ls = before ++ l :: after /\ starts_with p l /\ Forall (fun x => ~ starts_with p x) before
  | None => Forall (fun x => ~ starts_with p x) ls end.
Proof.
  induction ls as [|l ls IH]; cbn [lineStartingWith]; [constructor|]. destruct (startswith l p) eqn:S.
  - exists [], ls. repeat split; auto. apply starts_with_iff. auto.
  - assert (N : ~ starts_with p l) by (intro H; apply starts_with_iff in H; congruence).
    destruct (lineStartingWith p ls) as [l'|]; [|constructor; auto]. destruct IH as (b & a & -> & H1 & H2). exists (l :: b), a. repeat split; auto.
Qed.

(** ** The transmission of the parts *)
Lemma exchange_of data term w x w' : write_with data term true w = Done x w' ->
  exists evs, trace w' = trace w ++ evs /\ exchange data term evs x.
Proof.
  intro H. apply write_done in H as (busy & codes & r & E & B & NB & O & D & T). eexists. split; [exact T|].
  exists (writeWait (dev w)), busy, codes, r. auto.
Qed.
Lemma stuck_attempts data term busy codes : all_busy busy codes -> forall m tr w', write_on busy m tr data term true = Stuck w' ->
  exists evs, trace w' = tr ++ evs /\ forall r, attempts (data ++ term) (writeWait m) busy r = evs ++ attempts (data ++ term) (writeWait m + 2 * Z.of_nat (length busy)) [] r.
Proof.
  induction 1 as [|b c busy codes B _ IH]; intros m tr w' H.
  - injection H as <-. exists []. cbn [trace]. rewrite app_nil_r. split; auto. intro r. cbn [length]. rewrite Z.add_0_r. auto.
  - rewrite (write_busy _ _ _ _ _ _ c) in H by auto.
    destruct (write_on busy _ _ data term true) as [[a|e] w1|w1] eqn:E; try discriminate. injection H as <-.
    apply IH in E as (evs & T & R). cbn [writeWait set_writeWait] in R.
    exists (EWrite (data ++ term) (Some b) :: pause (writeWait m) ++ [ESleep (writeWait m + 2)] ++ evs). split.
    + rewrite T. rewrite <- !app_assoc. cbn. rewrite <- app_assoc. auto.
    + intro r. cbn [attempts]. rewrite R. cbn [length]. replace (writeWait m + 2 + 2 * Z.of_nat (length busy)) with (writeWait m + 2 * Z.of_nat (S (length busy))) by lia.
      cbn. rewrite <- !app_assoc. auto.
Qed.
(** a command that is still waiting: if nothing more comes it ends in a time-out *)
Lemma stuck_exchange data term w w' : write_with data term true w = Stuck w' ->
  exists evs, trace w' = trace w ++ evs /\ exchange data term (evs ++ [EWrite (data ++ term) (Some (NoReply []))]) (Err (TimeoutException None)).
Proof.
  intro H. destruct (write_any data term w) as [(busy & codes & r & rest & x & _ & _ & _ & _ & W)|(busy & codes & w0 & E & B & W)]; rewrite W in H; [discriminate|].
  injection H as ->. unfold write_with in W. rewrite E in W. apply (stuck_attempts _ _ _ _ B) in W as (evs & T & R). exists evs. split; auto.
  exists (writeWait (dev w)), busy, codes, (NoReply []). rewrite R. repeat split; auto; [|constructor].
  intros c (_ & l & x & k & F & _). discriminate.
Qed.

Lemma write_frame data term w x w' : write_with data term true w = Done x w' -> exists v, dev w' = set_writeWait v (dev w).
Proof. intro H. apply write_done in H as (busy & codes & r & _ & _ & _ & _ & D & _). eauto. Qed.

Lemma send_pdus_spec pdus : Forall (fun p => octets_ok (pdu_data p) /\ 0 <= pdu_tpduLength p) pdus -> forall answer result w,
  result = lineStartingWith (lit "+CMGS:") answer ->
  match send_pdus pdus result w with
  | Done x w' => exists evs y, trace w' = trace w ++ evs /\ transmission pdus answer evs y /\
      x = match y with Ok a => Ok (lineStartingWith (lit "+CMGS:") a) | Err e => Err e end /\ (exists v, dev w' = set_writeWait v (dev w))
  | Stuck w' => exists evs text, trace w' = trace w ++ evs /\
      transmission pdus answer (evs ++ [EWrite text (Some (NoReply []))]) (Err (TimeoutException None))
  end.
Proof.
  induction 1 as [|p pdus [Ho Hl] _ IH]; intros answer result w ->.
  - cbn. exists [], (Ok answer). rewrite app_nil_r. repeat split; auto; [constructor|]. exists (writeWait (dev w)). rewrite set_wait_same. auto.
  - cbn [send_pdus]. set (c := lit "AT+CMGS=" ++ str_of_Z (pdu_tpduLength p)).
    assert (Ha : announces p c) by (exists (str_of_Z (pdu_tpduLength p)); split; [apply str_of_Z_decimal; auto|auto]).
    assert (Hc : carries p (pdu_str (pdu_data p))) by (apply pdu_str_hex; auto).
    unfold mbind at 1. unfold write. destruct (write_with c CR true w) as [[a1|e] w1|w1] eqn:W1.
    + destruct (write_frame _ _ _ _ _ W1) as [v1 D1].
      apply exchange_of in W1 as (e1 & T1 & X1). unfold mbind at 1.
      destruct (write_with (pdu_str (pdu_data p)) CTRL_Z true w1) as [[a2|e] w2|w2] eqn:W2.
      * destruct (write_frame _ _ _ _ _ W2) as [v2 D2].
        apply exchange_of in W2 as (e2 & T2 & X2). specialize (IH a2 _ w2 eq_refl). destruct (send_pdus pdus _ w2) as [x w'|w'].
        -- destruct IH as (e3 & y & T3 & Tr & -> & Fr). exists (e1 ++ e2 ++ e3), y. rewrite T3, T2, T1, <- !app_assoc. split; auto. split; [econstructor; eauto|].
           split; auto. destruct Fr as [v Fr]. exists v. rewrite Fr, D2, D1. auto.
        -- destruct IH as (e3 & text & T3 & Tr). exists (e1 ++ e2 ++ e3), text. rewrite T3, T2, T1, <- !app_assoc. split; auto. econstructor; eauto.
      * destruct (write_frame _ _ _ _ _ W2) as [v2 D2]. apply exchange_of in W2 as (e2 & T2 & X2). exists (e1 ++ e2), (Err e). rewrite T2, T1, <- !app_assoc. split; auto.
        split; [eapply tr_failed; eauto|]. split; auto. exists v2. rewrite D2, D1. auto.
      * apply stuck_exchange in W2 as (e2 & T2 & X2). exists (e1 ++ e2), (pdu_str (pdu_data p) ++ CTRL_Z). rewrite T2, T1, <- !app_assoc. split; auto.
        eapply tr_failed; eauto.
    + destruct (write_frame _ _ _ _ _ W1) as [v1 D1].
      apply exchange_of in W1 as (e1 & T1 & X1). exists e1, (Err e). split; auto. split; [eapply tr_refused; eauto|]. split; auto. exists v1. auto.
    + apply stuck_exchange in W1 as (e1 & T1 & X1). exists e1, (c ++ CR). split; auto. eapply tr_refused; eauto.
Qed.

(** ** sendSms as a whole *)
Definition transmit (m : modem) (destination text : str) (fl : bool) : M (option str) :=
  if smsTextMode m then send_text destination text
  else do pdus <- lift (encodeSmsSubmitPdu destination text (smsRef m) VNone None true false fl); send_pdus pdus None.
Definition next_ref (n : Z) : Z := if 255 <? n + 1 then 0 else n + 1.
Definition recorded (m : modem) (destination text : str) (n : Z) (wt : bool) : modem :=
  let m := set_sentTable (zset (sentTable m) n (length (sentObjs m)))
             (set_sentObjs (sentObjs m ++ [mk_sent destination text n None]) (set_smsRef (next_ref n) m)) in
  if wt then set_reportEvent (Some false) m else m.
Lemma sendSms_eq destination text fl wt w : sendSms destination text fl wt w =
  match transmit (dev w) destination text fl w with
  | Done (Ok None) w' => Done (Err cmgs_missing) w'
  | Done (Ok (Some line)) w' =>
      match py_int 10 (skipn 7 line) with
      | Err e => Done (Err e) w'
      | Ok n => Done (Ok (length (sentObjs (dev w')))) (mk_world (recorded (dev w') destination text n wt) (script w') (trace w'))
      end
  | Done (Err e) w' => Done (Err e) w'
  | Stuck w' => Stuck w'
  end.
Proof.
  unfold sendSms. unfold mbind at 1, get at 1. fold (transmit (dev w) destination text fl).
  unfold mbind at 1. destruct (transmit (dev w) destination text fl w) as [[[line|]|e] w'|w']; auto.
  unfold mbind at 1, lift. destruct (py_int 10 (skipn 7 line)) as [n|e]; auto.
  destruct w' as [m sc tr]. unfold recorded, next_ref, mbind, modify, get, ret. cbn [dev script trace set_smsRef smsRef].
  destruct (255 <? n + 1); destruct wt; reflexivity.
Qed.

Lemma first_cmgs_iff answer : match lineStartingWith (lit "+CMGS:") answer with
  | Some l => first_cmgs answer l | None => Forall (fun l => ~ starts_with (lit "+CMGS:") l) answer end.
Proof. pose proof (first_line_iff (lit "+CMGS:") answer). destruct (lineStartingWith _ answer); auto. Qed.
Lemma first_cmgs_unique answer l1 l2 : first_cmgs answer l1 -> first_cmgs answer l2 -> l1 = l2.
Proof.
  intros (b1 & a1 & -> & S1 & F1) (b2 & a2 & E & S2 & F2). revert b2 E F2. induction b1 as [|x b1 IH]; intros [|y b2] E F2; cbn in E.
  - congruence.
  - injection E as <- _. inversion F2. tauto.
  - injection E as -> _. inversion F1. tauto.
  - injection E as <- E. inversion F1; inversion F2; subst. eapply IH; eauto.
Qed.

(** what the answer to the last part leads to *)
Definition sms_state (m : modem) := (smsRef m, sentObjs m, sentTable m, reportEvent m).
Inductive concluded (m m' : modem) (destination text : str) (wt : bool) : res (list str) -> res nat -> Prop :=
| cc_error e : sms_state m' = sms_state m -> concluded m m' destination text wt (Err e) (Err e)
| cc_no_line a : Forall (fun l => ~ starts_with (lit "+CMGS:") l) a -> sms_state m' = sms_state m ->
    concluded m m' destination text wt (Ok a) (Err cmgs_missing)
| cc_no_number a line : first_cmgs a line -> (forall n, ~ number_text n (skipn 7 line)) -> sms_state m' = sms_state m ->
    concluded m m' destination text wt (Ok a) (Err ValueError)
| cc_ok a n : reference_in a n -> smsRef m' = next_ref n -> sentObjs m' = sentObjs m ++ [mk_sent destination text n None] ->
    sentTable m' = zset (sentTable m) n (length (sentObjs m)) -> reportEvent m' = (if wt then Some false else reportEvent m) ->
    concluded m m' destination text wt (Ok a) (Ok (length (sentObjs m))).

Lemma conclude_spec a w1 m0 destination text wt : (exists v, dev w1 = set_writeWait v m0) -> forall x w',
  match lineStartingWith (lit "+CMGS:") a with
  | None => Done (Err cmgs_missing) w1
  | Some line => match py_int 10 (skipn 7 line) with
      | Err e => Done (Err e) w1
      | Ok n => Done (Ok (length (sentObjs (dev w1)))) (mk_world (recorded (dev w1) destination text n wt) (script w1) (trace w1))
      end
  end = Done x w' -> trace w' = trace w1 /\ concluded m0 (dev w') destination text wt (Ok a) x.
Proof.
  intros [v D] x w' H. pose proof (first_cmgs_iff a) as F. destruct (lineStartingWith (lit "+CMGS:") a) as [line|].
  - destruct (py_int 10 (skipn 7 line)) as [n|e] eqn:P; injection H as <- <-.
    + split; auto. cbn [dev]. rewrite D. cbn [sentObjs set_writeWait]. apply cc_ok with n.
      * exists line. split; auto. apply py_int_iff. auto.
      * unfold recorded. destruct wt; reflexivity.
      * unfold recorded. destruct wt; reflexivity.
      * unfold recorded. destruct wt; reflexivity.
      * unfold recorded. destruct wt; reflexivity.
    + split; auto. rewrite (py_int_err _ _ _ P). apply cc_no_number with line; auto.
      * intros n Hn. apply py_int_iff in Hn. congruence.
      * rewrite D. auto.
  - injection H as <- <-. split; auto. apply cc_no_line; auto. rewrite D. auto.
Qed.

Lemma send_pdu_mode destination text fl wt w pdus : smsTextMode (dev w) = false ->
  encodeSmsSubmitPdu destination text (smsRef (dev w)) VNone None true false fl = Ok pdus ->
  match sendSms destination text fl wt w with
  | Done x w' => exists evs y, trace w' = trace w ++ evs /\ transmits pdus evs y /\ concluded (dev w) (dev w') destination text wt y x
  | Stuck w' => exists evs, trace w' = trace w ++ evs /\ transmitting pdus evs
  end.
Proof.
  intros Tm E. rewrite sendSms_eq. unfold transmit. rewrite Tm, E. unfold mbind, lift.
  destruct (pdus_fine _ _ _ _ _ E) as [_ F]. pose proof (send_pdus_spec pdus F [] None w eq_refl) as S.
  destruct (send_pdus pdus None w) as [[r|e] w1|w1].
  - destruct S as (evs & y & T & Tr & Ex & D). destruct y as [a|e]; [|discriminate]. injection Ex as ->.
    remember (match lineStartingWith (lit "+CMGS:") a with Some _ => _ | None => _ end) as o eqn:H.
    destruct o as [x w'|w'].
    + symmetry in H. destruct (conclude_spec a w1 (dev w) destination text wt D x w' H) as [T' C]. exists evs, (Ok a). rewrite T'. auto.
    + exfalso. destruct (lineStartingWith (lit "+CMGS:") a); [destruct (py_int 10 _); discriminate|discriminate].
  - destruct S as (evs & y & T & Tr & Ex & D). destruct y as [a|e']; [discriminate|]. injection Ex as ->.
    exists evs, (Err e'). repeat split; auto. constructor. destruct D as [v ->]. auto.
  - destruct S as (evs & text0 & T & Tr). exists evs. split; auto. exists text0. auto.
Qed.
Lemma send_unencodable destination text fl wt w e : smsTextMode (dev w) = false ->
  encodeSmsSubmitPdu destination text (smsRef (dev w)) VNone None true false fl = Err e -> sendSms destination text fl wt w = Done (Err e) w.
Proof. intros Tm E. rewrite sendSms_eq. unfold transmit. rewrite Tm, E. auto. Qed.

Lemma send_text_mode destination text fl wt w : smsTextMode (dev w) = true ->
  match sendSms destination text fl wt w with
  | Done x w' => exists evs y, trace w' = trace w ++ evs /\ concluded (dev w) (dev w') destination text wt y x /\
      ((exists e, y = Err e /\ exchange (lit "AT+CMGS=""" ++ destination ++ lit """") [13] evs y) \/
       exists a1 e1 e2, evs = e1 ++ e2 /\ exchange (lit "AT+CMGS=""" ++ destination ++ lit """") [13] e1 (Ok a1) /\ exchange text [26] e2 y)
  | Stuck w' => True
  end.
Proof.
  intro Tm. rewrite sendSms_eq. unfold transmit. rewrite Tm. unfold send_text. unfold mbind at 1.
  unfold write. destruct (write_with _ CR true w) as [[a1|e] w1|w1] eqn:W1; auto.
  - destruct (write_frame _ _ _ _ _ W1) as [v1 D1]. apply exchange_of in W1 as (e1 & T1 & X1).
    unfold mbind at 1. destruct (write_with text CTRL_Z true w1) as [[a2|e] w2|w2] eqn:W2; auto.
    + destruct (write_frame _ _ _ _ _ W2) as [v2 D2]. apply exchange_of in W2 as (e2 & T2 & X2). cbn [ret].
      remember (match lineStartingWith (lit "+CMGS:") a2 with Some _ => _ | None => _ end) as o eqn:H. destruct o as [x w'|w']; auto.
      symmetry in H. assert (D : exists v, dev w2 = set_writeWait v (dev w)) by (exists v2; rewrite D2, D1; auto).
      destruct (conclude_spec a2 w2 (dev w) destination text wt D x w' H) as [T' C]. exists (e1 ++ e2), (Ok a2).
      rewrite T', T2, T1, <- app_assoc. repeat split; auto. right. exists a1, e1, e2. auto.
    + destruct (write_frame _ _ _ _ _ W2) as [v2 D2]. apply exchange_of in W2 as (e2 & T2 & X2). exists (e1 ++ e2), (Err e). rewrite T2, T1, <- app_assoc.
      repeat split; auto; [constructor; rewrite D2, D1; auto|]. right. exists a1, e1, e2. auto.
  - destruct (write_frame _ _ _ _ _ W1) as [v1 D1]. apply exchange_of in W1 as (e1 & T1 & X1). exists e1, (Err e). repeat split; auto; [constructor; rewrite D1; auto|].
    left. eauto.
Qed.
