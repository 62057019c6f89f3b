From Verif Require Import Base PduModel PduSpec SmsSpec SubmitSpec DeliverSpec FieldProofs SeptetProofs Gsm7Proofs SubmitProofs ModemCore ModemSpec WriteProofs MonadProofs
  SmsModel SendSpec TrackSpec SendProofs TrackProofs StoreProofs ModemFinal PartsSpec.

(** ** What the device took *)
Lemma took_skip e evs tk : (forall text ls line, e = EWrite (text ++ [26]) (Some (Lines (ls ++ [line]))) -> ~ good_line line) ->
  took (e :: evs) tk -> took evs tk.
Proof. intros N T. inversion T; subst; auto. exfalso. eapply N; eauto. Qed.
Lemma took_pause wait evs tk : took (pause wait ++ evs) tk -> took evs tk.
Proof. unfold pause. destruct (0 <? wait); auto. apply took_skip. discriminate. Qed.
Lemma took_wait wait r evs tk : took (match r with Lines _ => pause wait | NoReply _ => [] end ++ evs) tk -> took evs tk.
Proof. destruct r; [apply took_pause|auto]. Qed.
Lemma cm_error_is_error kind code line : cm_error kind code line -> error_line line.
Proof.
  intros (_ & ds & nl & -> & _). exists (lit "+CM" ++ [kind] ++ lit " "), (lit ": " ++ ds ++ nl). rewrite <- !app_assoc. reflexivity.
Qed.
Lemma took_attempts_command c busy wait r evs tk : took (attempts (c ++ [13]) wait busy r ++ evs) tk -> took evs tk.
Proof.
  assert (N : forall x text ls line, EWrite (c ++ [13]) x = EWrite (text ++ [26]) (Some (Lines (ls ++ [line]))) -> ~ good_line line).
  { intros x text ls line E. injection E as E _. apply app_inj_tail in E as [_ E]. discriminate E. }
  revert wait. induction busy as [|b busy IH]; intros wait; cbn [attempts app].
  - intro T. apply took_skip in T; [|eauto]. eapply took_wait; eauto.
  - intro T. apply took_skip in T; [|eauto]. rewrite <- app_assoc in T. apply took_pause in T. cbn [app] in T. apply took_skip in T; [|discriminate]. eauto.
Qed.
Lemma took_attempts t busy codes wait r evs tk : all_busy busy codes -> took (attempts (t ++ [26]) wait busy r ++ evs) tk ->
  exists wait', took ((EWrite (t ++ [26]) (Some r) :: match r with Lines _ => pause wait' | NoReply _ => [] end) ++ evs) tk.
Proof.
  intro B. revert wait. induction B as [|b code busy codes Hb _ IH]; intro wait; cbn [attempts app].
  - intro T. exists wait. exact T.
  - intro T. apply took_skip in T.
    + rewrite <- app_assoc in T. apply took_pause in T. cbn [app] in T. apply took_skip in T; [|discriminate]. eauto.
    + intros text ls line E. injection E as _ ->. destruct Hb as (_ & ls' & line' & kind & E & C). injection E as E. apply app_inj_tail in E as [_ ->].
      intros [N _]. apply N. eapply cm_error_is_error; eauto.
Qed.
Lemma took_command c evs x rest tk : exchange c [13] evs x -> took (evs ++ rest) tk -> took rest tk.
Proof. intros (wait & busy & codes & r & -> & _ & _ & _) T. eapply took_attempts_command; eauto. Qed.
Lemma took_good t evs a rest tk : exchange t [26] evs (Ok a) -> took (evs ++ rest) tk -> exists tk', tk = (t, a) :: tk' /\ took rest tk'.
Proof.
  intros (wait & busy & codes & r & -> & B & _ & O) T. apply (took_attempts _ _ _ _ _ _ _ B) in T as [wait' T].
  inversion O as [| | |ls line G E1 E2| | |]; subst. cbn [app] in T. inversion T as [|text ls' line' evs' l G' T' E1 E2|e evs' l N T' E1 E2]; subst.
  - repeat match goal with H : _ ++ [_] = _ ++ [_] |- _ => apply app_inj_tail in H as [-> ?] end. subst. exists l. split; auto. eapply took_pause; eauto.
  - exfalso. eapply N; eauto.
Qed.
Lemma took_bad t evs e rest tk : exchange t [26] evs (Err e) -> took (evs ++ rest) tk -> took rest tk.
Proof.
  intros (wait & busy & codes & r & -> & B & _ & O) T. apply (took_attempts _ _ _ _ _ _ _ B) in T as [wait' T].
  cbn [app] in T. apply took_skip in T; [eapply took_wait; eauto|].
  intros text ls line E. injection E as _ ->. inversion O as [| |E| |ls' line' kind code e' C|ls' line' C|ls' E]; subst.
  - destruct ls; discriminate.
  - match goal with H : _ ++ [_] = _ ++ [_] |- _ => apply app_inj_tail in H as [_ ->] end. intros [N _]. apply N. eapply cm_error_is_error; eauto.
  - match goal with H : _ ++ [_] = _ ++ [_] |- _ => apply app_inj_tail in H as [_ ->] end. intros [N _]. auto.
  - apply app_inj_tail in E as [_ <-]. intros [_ N]. apply N. reflexivity.
Qed.
Lemma took_silence text tk evs : took evs tk -> took (evs ++ [EWrite text (Some (NoReply []))]) tk.
Proof. induction 1; cbn [app]; [apply took_other; [discriminate|constructor]|constructor; auto|apply took_other; auto]. Qed.

Lemma last_more {A} (l : list A) : forall a d, last (a :: l) d = last l a.
Proof. induction l as [|b l IH]; intros a d; [reflexivity|]. change (last (b :: l) d = last (b :: l) a). rewrite !IH. reflexivity. Qed.
(** what was taken in a transmission: a beginning of the parts, and all of them when it succeeded *)
Lemma took_parts ps answer evs x tk : transmission ps answer evs x -> took evs tk ->
  exists done rest, ps = done ++ rest /\ Forall2 (fun p k => carries p (fst k)) done tk /\
    match x with Ok a => rest = [] /\ a = last (map snd tk) answer | Err _ => True end.
Proof.
  intro T. revert tk. induction T as [answer|p ps answer c t e1 e2 e3 a1 a2 x A C X1 X2 T IH|p ps answer c e1 e A X1|p ps answer c t e1 e2 a1 e A C X1 X2]; intros tk K.
  - inversion K; subst. exists [], []. split; [auto|]. split; [constructor|]. auto.
  - apply (took_command _ _ _ _ _ X1) in K. apply (took_good _ _ _ _ _ X2) in K as (tk' & -> & K).
    destruct (IH _ K) as (done & rest & -> & F & L). exists (p :: done), rest. split; [auto|]. split; [constructor; auto|].
    destruct x; auto. destruct L as [-> ->]. split; auto. cbn [map snd]. symmetry. apply last_more.
  - rewrite <- (app_nil_r e1) in K. apply (took_command _ _ _ _ _ X1) in K. inversion K; subst. exists [], (p :: ps). split; [auto|]. split; [constructor|auto].
  - apply (took_command _ _ _ _ _ X1) in K. rewrite <- (app_nil_r e2) in K. apply (took_bad _ _ _ _ _ X2) in K. inversion K; subst.
    exists [], (p :: ps). split; [auto|]. split; [constructor|auto].
Qed.

(** ** One call *)
Lemma one_call d t fl wt m sc tk : smsTextMode m = false -> took (trace_after (sendSms d t fl wt (start m sc))) tk ->
  match sendSms d t fl wt (start m sc) with
  | Done (Ok obj) w => exists pdus r, encodeSmsSubmitPdu d t (smsRef m) VNone None true false fl = Ok pdus /\
      Forall2 (fun p k => carries p (fst k)) pdus tk /\ tk <> [] /\ reference_in (last (map snd tk) []) r /\
      obj = length (sentObjs m) /\ sentObjs (dev w) = sentObjs m ++ [mk_sent d t r None] /\ smsRef (dev w) = next_ref r
  | o => sms_state (state_after o) = sms_state m /\
      (tk = [] \/ exists done rest, encodeSmsSubmitPdu d t (smsRef m) VNone None true false fl = Ok (done ++ rest) /\
        Forall2 (fun p k => carries p (fst k)) done tk)
  end.
Proof.
  intros Tm K. pose proof (sendSms_state d t fl wt (start m sc)) as St.
  destruct (encodeSmsSubmitPdu d t (smsRef m) VNone None true false fl) as [pdus|e] eqn:E.
  - pose proof (send_pdu_mode d t fl wt (start m sc) pdus Tm E) as S. destruct (sendSms d t fl wt (start m sc)) as [[obj|e] w|w]; cbn [start dev trace_after state_after] in *.
    + destruct S as (evs & y & T & Tr & C). cbn [trace] in T. cbn [app] in T. rewrite T in K. inversion C as [| | |a n R C1 C2 C3 C4]; subst.
      destruct (took_parts _ _ _ _ _ Tr K) as (done & rest & -> & F & -> & L). rewrite app_nil_r in *.
      exists done, n. split; [auto|]. split; [auto|].
      assert (tk <> []). { intros ->. inversion F; subst. destruct (pdus_fine _ _ _ _ _ E). auto. }
      split; [auto|]. subst. auto.
    + split; [exact St|]. destruct S as (evs & y & T & Tr & C). cbn [trace app] in T. rewrite T in K.
      destruct (took_parts _ _ _ _ _ Tr K) as (done & rest & -> & F & _). right. eauto.
    + split; [exact St|]. destruct S as (evs & T & text & Tr). cbn [trace app] in T. rewrite T in K. apply (took_silence text) in K.
      destruct (took_parts _ _ _ _ _ Tr K) as (done & rest & -> & F & _). right. eauto.
  - rewrite (send_unencodable d t fl wt (start m sc) e Tm E) in *. cbn [start dev trace_after state_after trace] in *. split; auto. left. inversion K; auto.
Qed.

Lemma forall2_nth {A B} (P : A -> B -> Prop) l l' : Forall2 P l l' -> forall i y, nth_error l' i = Some y -> exists x, nth_error l i = Some x /\ P x y.
Proof. induction 1 as [|a b l l' H _ IH]; intros [|i] y E; cbn in *; try discriminate; [injection E as <-; eauto|eauto]. Qed.
Lemma long_gsm7 t n gsm7 : long t n -> uses_gsm7 t gsm7 -> max_chars gsm7 < len t /\ n = len t / max_chars gsm7 + 1.
Proof.
  intros (g & U & L & ->) U'. assert (g = gsm7); [|subst; auto].
  destruct U as [[-> F]|[-> (p & c & q & -> & F & N & _)]], U' as [[-> F']|[-> (p' & c' & q' & E & F' & N' & _)]]; auto; exfalso.
  - subst. apply Forall_app in F as [_ F]. inversion F; auto.
  - apply Forall_app in F' as [_ F']. inversion F'; auto.
Qed.
Lemma headers d t r fl done rest n tk : long t n -> encodeSmsSubmitPdu d t r VNone None true false fl = Ok (done ++ rest) ->
  Forall2 (fun p k => carries p (fst k)) done tk -> parts_with d t r n tk.
Proof.
  intros L E F i hex a K. destruct (forall2_nth _ _ _ F _ _ K) as (p & N & C). cbn [fst] in C.
  destruct (encode_wires _ _ _ _ _ _ _ _ _ E) as (gsm7 & _ & U & HL & HN). destruct (long_gsm7 _ _ _ L U) as [M ->].
  assert (N' : nth_error (done ++ rest) i = Some p). { rewrite nth_error_app1; auto. apply nth_error_Some. congruence. }
  apply HN in N' as [Hi [w W]]. exists gsm7, w. destruct W. split; [auto|].
  unfold carries in C. rewrite pw_data in C. split; [auto|]. cbn in pw_smsc. split; [auto|]. split; [apply pw_vp; auto|].
  assert (B : (max_chars gsm7 <? len t) = true) by (apply Z.ltb_lt; auto). rewrite B in pw_first. split; [auto|]. split; [auto|].
  unfold concat_of in pw_ud. unfold part_header, part_text in pw_ud. rewrite B in pw_ud. unfold pdu_count in pw_ud. rewrite B in pw_ud. exact pw_ud.
Qed.
Lemma call_parts d t fl wt m sc tk n : smsTextMode m = false -> long t n -> took (trace_after (sendSms d t fl wt (start m sc))) tk ->
  parts_with d t (smsRef m) n tk.
Proof.
  intros Tm L K. pose proof (one_call d t fl wt m sc tk Tm K) as O.
  assert (Nil : tk = [] -> parts_with d t (smsRef m) n tk) by (intros -> [|i] hex a E; discriminate).
  destruct (sendSms d t fl wt (start m sc)) as [[obj|e] w|w].
  - destruct O as (pdus & r & E & F & _). eapply headers; eauto. rewrite app_nil_r. eauto.
  - destruct O as [_ [->|(done & rest & E & F)]]; auto. eapply headers; eauto.
  - destruct O as [_ [->|(done & rest & E & F)]]; auto. eapply headers; eauto.
Qed.

(** ** Histories *)
Lemma calls_mode m cs m' : calls m cs m' -> smsTextMode m = false -> smsTextMode m' = false.
Proof.
  assert (P : forall d t fl wt m1 sc, smsTextMode (state_after (sendSms d t fl wt (start m1 sc))) = smsTextMode m1).
  { intros. rewrite sendSms_eq. pose proof (keeps_transmit smsTextMode m1 d t fl ltac:(reflexivity) (start m1 sc)) as K. cbn [start dev] in *.
    destruct (transmit m1 d t fl _) as [[[line|]|e] w|w]; cbn [last_of state_after] in *; auto.
    destruct (py_int 10 _); cbn [state_after dev]; auto. unfold recorded. destruct wt; auto. }
  intros H Tm. induction H as [|cs m1 d t fl wt sc obj w s tk H IH S N K|cs m1 d t fl wt sc tk H IH S K]; auto.
  - pose proof (P d t fl wt m1 sc) as Q. rewrite S in Q. cbn in Q. congruence.
  - rewrite P. auto.
Qed.
Lemma calls_snoc m cs c m' : calls m (cs ++ [c]) m' -> exists m1, calls m cs m1 /\ exists fl wt sc,
  took (trace_after (sendSms (c_to c) (c_text c) fl wt (start m1 sc))) (c_took c) /\ m' = state_after (sendSms (c_to c) (c_text c) fl wt (start m1 sc)) /\
  match c_number c with
  | Some r => exists obj w s, sendSms (c_to c) (c_text c) fl wt (start m1 sc) = Done (Ok obj) w /\ nth_error (sentObjs (dev w)) obj = Some s /\ r = s_reference s
  | None => forall obj w, sendSms (c_to c) (c_text c) fl wt (start m1 sc) <> Done (Ok obj) w
  end.
Proof.
  intro H. inversion H as [E|cs1 m1 d t fl wt sc obj w s tk H1 S N K E|cs1 m1 d t fl wt sc tk H1 S K E].
  - destruct cs; discriminate.
  - apply app_inj_tail in E as [-> <-]. exists m1. split; auto. exists fl, wt, sc. cbn [c_to c_text c_took c_number]. rewrite S. cbn [trace_after state_after]. split; [auto|]. split; [auto|]. eauto 10.
  - apply app_inj_tail in E as [-> <-]. exists m1. split; auto. exists fl, wt, sc. cbn [c_to c_text c_took c_number]. auto.
Qed.
Lemma calls_app cs2 : forall m cs1 m', calls m (cs1 ++ cs2) m' -> exists m1, calls m cs1 m1 /\ calls m1 cs2 m'.
Proof.
  intros m cs1 m' H. remember (cs1 ++ cs2) as cs eqn:E. revert cs2 E.
  induction H as [|cs m1 d t fl wt sc obj w s tk H IH S N K|cs m1 d t fl wt sc tk H IH S K]; intros cs2 E.
  - symmetry in E. apply app_eq_nil in E as [-> ->]. exists m. split; constructor.
  - destruct cs2 as [|c cs2 _] using rev_ind.
    + rewrite app_nil_r in E. subst cs1. eexists. split; [eapply calls_returned; eauto|constructor].
    + rewrite app_assoc in E. apply app_inj_tail in E as [-> <-]. destruct (IH _ eq_refl) as (m0 & A & B). exists m0. split; auto. eapply calls_returned; eauto.
  - destruct cs2 as [|c cs2 _] using rev_ind.
    + rewrite app_nil_r in E. subst cs1. eexists. split; [eapply calls_failed; eauto|constructor].
    + rewrite app_assoc in E. apply app_inj_tail in E as [-> <-]. destruct (IH _ eq_refl) as (m0 & A & B). exists m0. split; auto. eapply calls_failed; eauto.
Qed.

(** failing calls leave the number for the next message *)
Lemma failed_same m cs m' : calls m cs m' -> Forall (fun c => c_number c = None) cs -> smsRef m' = smsRef m.
Proof.
  intro H. induction H as [|cs m1 d t fl wt sc obj w s tk H IH S N K|cs m1 d t fl wt sc tk H IH S K]; intro F; auto.
  - apply Forall_app in F as [_ F]. inversion F. discriminate.
  - apply Forall_app in F as [F _]. rewrite <- (IH F). pose proof (sendSms_state d t fl wt (start m1 sc)) as X.
    destruct (sendSms d t fl wt (start m1 sc)) as [[obj|e] w|w]; [exfalso; eapply S; eauto| |]; cbn [state_after start dev] in *; unfold sms_state in X; congruence.
Qed.
Lemma calls_one m c m' : calls m [c] m' -> smsTextMode m = false -> forall n, long (c_text c) n -> parts_with (c_to c) (c_text c) (smsRef m) n (c_took c).
Proof.
  intros H Tm n L. apply (calls_snoc m [] c) in H as (m1 & H & fl & wt & sc & K & _). inversion H; [subst|destruct cs; discriminate|destruct cs; discriminate].
  eapply call_parts; eauto.
Qed.
Lemma same_reference m cs1 a cs2 b m' na nb : smsTextMode m = false -> calls m (cs1 ++ a :: cs2 ++ [b]) m' ->
  Forall (fun c => c_number c = None) (a :: cs2) -> long (c_text a) na -> long (c_text b) nb ->
  exists r, parts_with (c_to a) (c_text a) r na (c_took a) /\ parts_with (c_to b) (c_text b) r nb (c_took b).
Proof.
  intros Tm H F La Lb. apply calls_app in H as (m1 & H1 & H). pose proof (calls_mode _ _ _ H1 Tm) as Tm1.
  change (a :: cs2 ++ [b]) with ((a :: cs2) ++ [b]) in H. apply calls_app in H as (m2 & Ha & Hb).
  pose proof (failed_same _ _ _ Ha F) as R. pose proof (calls_mode _ _ _ Ha Tm1) as Tm2. exists (smsRef m1). split.
  - change (a :: cs2) with ([a] ++ cs2) in Ha. apply calls_app in Ha as (m3 & Ha & _). eapply calls_one; eauto.
  - rewrite <- R. eapply calls_one; eauto.
Qed.

(** ** A device that counts *)
Lemma reference_unique a n n' : reference_in a n -> reference_in a n' -> n = n'.
Proof.
  intros (l & F & N) (l' & F' & N'). rewrite (first_cmgs_unique _ _ _ F F') in N. apply py_int_iff in N, N'. congruence.
Qed.
Lemma counting_app l : forall c l' c', counting c (l ++ l') c' -> exists c1, counting c l c1 /\ counting c1 l' c'.
Proof.
  induction l as [|[t a] l IH]; intros c l' c' H; cbn [app] in *; [exists c; split; [constructor|auto]|].
  inversion H; subst. match goal with H : counting _ (l ++ l') _ |- _ => apply IH in H as (c1 & A & B) end. exists c1. split; auto. constructor; auto.
Qed.
Lemma counting_total c l c' : counting c l c' -> 0 <= c < 256 -> c' = (c + len l) mod 256 /\ 0 <= c' < 256.
Proof.
  induction 1 as [c|c t a l c' R _ IH]; intro B.
  - unfold len. cbn. rewrite Z.add_0_r, Z.mod_small; lia.
  - destruct IH as [-> IH]; [apply Z.mod_pos_bound; lia|]. split; auto. rewrite Z.add_mod_idemp_l by lia. f_equal. unfold len. cbn [length]. lia.
Qed.
Lemma counting_last c l c' : counting c l c' -> l <> [] -> 0 <= c < 256 -> forall r, reference_in (last (map snd l) []) r -> next_ref r = c'.
Proof.
  induction 1 as [c|c t a l c' R H IH]; intros N B r Rr; [congruence|].
  destruct l as [|k l].
  - cbn in Rr. inversion H; subst. rewrite (reference_unique _ _ _ Rr R). unfold next_ref. destruct (Z.ltb_spec 255 (c + 1)).
    + replace c with 255 by lia. reflexivity.
    + rewrite Z.mod_small; lia.
  - apply IH; [discriminate|apply Z.mod_pos_bound; lia|exact Rr].
Qed.
Lemma calls_counted m cs m' c c' : smsTextMode m = false -> calls m cs m' -> Forall (fun x => c_number x <> None) cs -> cs <> [] -> 0 <= c < 256 ->
  counting c (flat_map c_took cs) c' -> smsRef m' = c' /\ len (flat_map c_took cs) >= len cs.
Proof.
  intros Tm H. revert c'. induction H as [|cs m1 d t fl wt sc obj w s tk H IH S N K|cs m1 d t fl wt sc tk H IH S K]; intros c' F Ne B C; [congruence| |].
  - apply Forall_app in F as [F _]. rewrite flat_map_app in *. cbn [flat_map c_took app] in *. rewrite app_nil_r in *. apply counting_app in C as (c1 & C1 & C2).
    assert (B1 : 0 <= c1 < 256) by (eapply counting_total; eauto).
    pose proof (calls_mode _ _ _ H Tm) as Tm1. pose proof (one_call d t fl wt m1 sc tk Tm1) as O. rewrite S in O. cbn [trace_after] in O.
    destruct (O K) as (pdus & r & E & F2 & Nt & R & _ & _ & Sr). split; [rewrite Sr; eapply counting_last; eauto|].
    assert (len tk >= 1). { unfold len. destruct tk; [congruence|cbn; lia]. }
    destruct cs as [|x cs]; [cbn; unfold len in *; cbn; lia|]. destruct (IH c1 F ltac:(discriminate) B C1) as [_ L]. unfold len in *. rewrite !app_length in *. cbn [length] in *. lia.
  - apply Forall_app in F as [_ F]. inversion F as [|? ? X]. exfalso. apply X. reflexivity.
Qed.
Lemma other_reference m cs1 a cs2 b m' c c' na nb : smsTextMode m = false -> calls m (cs1 ++ a :: cs2 ++ [b]) m' ->
  Forall (fun x => c_number x <> None) (cs1 ++ a :: cs2) -> cs1 <> [] -> 0 <= c < 256 ->
  counting c (flat_map c_took (cs1 ++ a :: cs2)) c' -> len (flat_map c_took (a :: cs2)) < 256 -> long (c_text a) na -> long (c_text b) nb ->
  exists r r', r <> r' /\ parts_with (c_to a) (c_text a) r na (c_took a) /\ parts_with (c_to b) (c_text b) r' nb (c_took b).
Proof.
  intros Tm H F Ne B C Few La Lb. change (cs1 ++ a :: cs2 ++ [b]) with (cs1 ++ (a :: cs2) ++ [b]) in H. rewrite app_assoc in H.
  apply calls_app in H as (m2 & H & Hb). pose proof H as Hall. apply calls_app in H as (m1 & H1 & Ha).
  pose proof (calls_mode _ _ _ H1 Tm) as Tm1. pose proof (calls_mode _ _ _ Hall Tm) as Tm2.
  destruct (calls_counted _ _ _ _ _ Tm Hall F ltac:(intro X; apply app_eq_nil in X as [_ X]; discriminate) B C) as [R2 _].
  rewrite flat_map_app in C. apply counting_app in C as (c1 & C1 & C2). apply Forall_app in F as [F1 F2].
  destruct (calls_counted _ _ _ _ _ Tm H1 F1 Ne B C1) as [R1 _].
  assert (B1 : 0 <= c1 < 256) by (eapply counting_total; eauto).
  destruct (calls_counted _ _ _ _ _ Tm1 Ha F2 ltac:(discriminate) B1 C2) as [_ L].
  exists (smsRef m1), (smsRef m2). split.
  - rewrite R1, R2. destruct (counting_total _ _ _ C2 B1) as [-> _]. unfold len in L at 2. cbn [length] in L.
    set (k := len (flat_map c_took (a :: cs2))) in *. assert (K : 0 < k < 256) by lia.
    destruct (Z.lt_ge_cases (c1 + k) 256) as [G|G]; [rewrite Z.mod_small; lia|].
    replace (c1 + k) with ((c1 + k - 256) + 1 * 256) by lia. rewrite Z.mod_add, Z.mod_small; lia.
  - split; [|eapply calls_one; eauto]. change (a :: cs2) with ([a] ++ cs2) in Ha. apply calls_app in Ha as (m3 & Ha & _). eapply calls_one; eauto.
Qed.

(** ** The number by which the message is tracked *)
Lemma happens_app m hs m1 : happens m hs m1 -> forall hs' m2, happens m1 hs' m2 -> happens m (hs ++ hs') m2.
Proof.
  intros H hs' m2 H'. induction H' as [|hs' m3 d t fl wt sc obj w s H' IH S N|hs' m3 d t fl wt sc H' IH S|hs' m3 line mem idx sc st r nb t1 t2 code w1 w H' IH I R S|hs' m3 line sc H' IH S|hs' m3 sc H' IH];
    rewrite ?app_nil_r, ?app_assoc; auto.
  - eapply hp_sent; eauto.
  - eapply hp_send_failed; eauto.
  - eapply hp_reported; eauto.
  - eapply hp_report_failed; eauto.
  - eapply hp_wait; eauto.
Qed.
Lemma sent_as_app hs : forall k hs', sent_as k (hs ++ hs') = match sent_as k hs with Some (r, l) => Some (r, l ++ hs') | None => sent_as (k - count_sent hs) hs' end.
Proof.
  induction hs as [|[r|r c] hs IH]; intros k hs'; cbn [app sent_as count_sent].
  - rewrite Nat.sub_0_r. auto.
  - destruct k as [|k]; [reflexivity|]. rewrite IH. reflexivity.
  - rewrite IH. reflexivity.
Qed.
Lemma tracked_by hs m1 d t fl wt sc obj w tk later m2 : happens modem_init hs m1 -> smsTextMode m1 = false ->
  sendSms d t fl wt (start m1 sc) = Done (Ok obj) w -> took (trace w) tk -> happens (dev w) later m2 ->
  exists r s, tk <> [] /\ reference_in (last (map snd tk) []) r /\ nth_error (sentObjs m2) obj = Some s /\ s_reference s = r /\
    status_for (verdict_for r later None) (sent_status s).
Proof.
  intros H Tm S K L. pose proof (one_call d t fl wt m1 sc tk Tm) as O. rewrite S in O. cbn [trace_after] in O.
  destruct (O K) as (pdus & r & E & F2 & Nt & R & -> & So & _). exists r.
  assert (Hs : happens modem_init (hs ++ [Sent r]) (dev w)).
  { change r with (s_reference (mk_sent d t r None)). eapply hp_sent; eauto. rewrite So. apply nth_error_snoc. }
  pose proof (happens_app _ _ _ Hs _ _ L) as Ha. rewrite <- app_assoc in Ha. cbn [app] in Ha.
  assert (Cn : length (sentObjs m1) = count_sent hs) by (apply (happens_tracked modem_init hs m1 H); reflexivity).
  assert (Sa : sent_as (length (sentObjs m1)) (hs ++ Sent r :: later) = Some (r, later)).
  { rewrite sent_as_app. destruct (sent_as (length (sentObjs m1)) hs) eqn:X.
    - exfalso. assert (Y : sent_as (length (sentObjs m1)) hs <> None) by congruence. apply sent_as_lt in Y. lia.
    - rewrite Cn, Nat.sub_diag. reflexivity. }
  destruct (delivery _ _ _ _ _ Ha Sa) as (s & N & Rs & St). exists s. auto.
Qed.
Lemma verdict_app r l : forall l' acc, ~ In (Sent r) l -> verdict_for r (l ++ l') acc = verdict_for r l' (verdict_for r l acc).
Proof.
  induction l as [|[r'|r' c] l IH]; intros l' acc N; cbn [app verdict_for]; auto.
  - destruct (Z.eqb_spec r' r) as [->|]; [exfalso; apply N; left; auto|]. apply IH. intro I. apply N. right. auto.
  - apply IH. intro I. apply N. right. auto.
Qed.
Lemma other_message hs m1 k r l d t fl wt sc obj w tk code m2 : happens modem_init hs m1 -> smsTextMode m1 = false ->
  sent_as k hs = Some (r, l) -> ~ In (Sent r) l ->
  sendSms d t fl wt (start m1 sc) = Done (Ok obj) w -> took (trace w) tk -> ~ reference_in (last (map snd tk) []) r ->
  happens (dev w) [Reported r code] m2 ->
  (exists s, nth_error (sentObjs m2) k = Some s /\ status_for (Some code) (sent_status s)) /\
  (exists s, nth_error (sentObjs m2) obj = Some s /\ sent_status s = 0).
Proof.
  intros H Tm Sk Nl S K Nr L. destruct (tracked_by _ _ _ _ _ _ _ _ _ _ _ _ H Tm S K L) as (r' & s & _ & R & N & _ & St).
  assert (Nq : r <> r') by (intros ->; auto). split.
  - pose proof (one_call d t fl wt m1 sc tk Tm) as O. rewrite S in O. cbn [trace_after] in O. destruct (O K) as (pdus & r2 & E & F2 & Nt & R2 & -> & So & _).
    rewrite (reference_unique _ _ _ R2 R) in *.
    assert (Hs : happens modem_init (hs ++ [Sent r']) (dev w)).
    { change r' with (s_reference (mk_sent d t r' None)). eapply hp_sent; eauto. rewrite So. apply nth_error_snoc. }
    pose proof (happens_app _ _ _ Hs _ _ L) as Ha. rewrite <- app_assoc in Ha. cbn [app] in Ha.
    assert (Sa : sent_as k (hs ++ [Sent r'; Reported r code]) = Some (r, l ++ [Sent r'; Reported r code])) by (rewrite sent_as_app, Sk; auto).
    destruct (delivery _ _ _ _ _ Ha Sa) as (s' & N' & _ & St'). exists s'. split; auto. rewrite verdict_app in St' by auto. cbn [verdict_for] in St'.
    destruct (Z.eqb_spec r' r); [congruence|]. rewrite Z.eqb_refl in St'. exact St'.
  - exists s. split; auto. cbn [verdict_for] in St. destruct (Z.eqb_spec r r'); [congruence|]. destruct St as [[_ ?]|[[? _]|(c & ? & _)]]; [auto|discriminate|discriminate].
Qed.

(** ** For concrete executions *)
Lemma took_step t a evs l : t = removelast t ++ [26] -> a = removelast a ++ [lit "OK"] -> took evs l ->
  took (EWrite t (Some (Lines a)) :: evs) ((removelast t, a) :: l).
Proof.
  intros Et Ea K. rewrite Ea. rewrite Et at 1. constructor; auto. exact good_ok.
Qed.
Lemma took_else t x evs l : (last t 0 =? 26) = false -> took evs l -> took (EWrite t x :: evs) l.
Proof.
  intros N K. apply took_other; auto. intros text ls line E. injection E as -> _. rewrite last_last in N. discriminate N.
Qed.
