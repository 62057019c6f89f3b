(** Notifications about new messages, against a device with a message store. *)
From Verif Require Import Base RegexModel RegexProofs DateModel UtilModel TrieProofs PduModel ModemCore ModemSpec WriteProofs MonadProofs SmsModel SendSpec SendProofs TrackSpec StoreLemmas TrackProofs LangProofs CoverageSpec CoverageProofs StoreSpec ReadProofs.

(** ** What a device does behind a command *)
Lemma plays_app a : forall b d d', plays d (a ++ b) d' <-> exists d1, plays d a d1 /\ plays d1 b d'.
Proof.
  induction a as [|e a IH]; intros b d d'; cbn [app].
  - split; [intro H; exists d; split; auto; constructor|intros (d1 & H1 & H2); inversion H1; subst; auto].
  - split.
    + intro H. inversion H as [|text r evs d1 d2 A P|t evs d2 P|s evs d2 P]; subst; apply IH in P as (d3 & P1 & P2); exists d3; split; auto;
        [econstructor; eauto|constructor; auto|constructor; auto].
    + intros (d1 & H1 & H2). inversion H1; subst.
      * econstructor; eauto. apply IH. eauto.
      * constructor. apply IH. eauto.
      * constructor. apply IH. eauto.
Qed.
Lemma plays_pause w d d' : plays d (pause w) d' -> d' = d.
Proof. unfold pause. destruct (0 <? w); intro H; inversion H as [| |? ? ? P|]; subst; auto. inversion P; auto. Qed.

Lemma plays_sms s d d' : plays d [ESms s] d' -> d' = d.
Proof. intro H. inversion H as [| | |? ? ? P]; subst. inversion P; auto. Qed.
Lemma good_answer_not_busy ls : good_answer ls -> not_busy (Lines ls).
Proof. intros (b & l & -> & G). apply good_not_busy. auto. Qed.
Lemma good_ok : good_line (lit "OK").
Proof. split; [|discriminate]. intros (a & b & E). do 3 (destruct a as [|? a]; cbn in E; try discriminate). Qed.
Lemma answers_still d text r d' : answers d text r d' -> (forall ls, r = Lines ls -> ~ good_answer ls) -> d' = d.
Proof.
  intros [text0 code r0 B|text0 r0 F|mem ls G' G|ds content D C|ds ls D G] N; auto; exfalso; eapply N; eauto.
Qed.
Lemma busy_no_good code r : busy_reply code r -> forall ls, r = Lines ls -> ~ good_answer ls.
Proof. intros B ls -> G. eapply good_answer_not_busy; eauto. Qed.
Lemma plays_attempts text busy codes : all_busy busy codes -> forall wait r d d', plays d (attempts text wait busy r) d' -> answers d text r d'.
Proof.
  induction 1 as [|b c busy codes B F IH]; intros wait r d d' P; cbn [attempts] in P.
  - inversion P; subst. destruct r; [apply plays_pause in H4; subst; auto|]. inversion H4; subst. auto.
  - inversion P; subst. apply answers_still in H3; [|eapply busy_no_good; eauto]. subst.
    apply plays_app in H4 as (d2 & P1 & P2). apply plays_pause in P1. subst. inversion P2; subst. eauto.
Qed.
Lemma attempts_has text busy r : forall wait, In (EWrite text (Some r)) (attempts text wait busy r).
Proof. induction busy as [|b busy IH]; intro wait; cbn [attempts]; [left; auto|]. right. apply in_app_iff. right. right. auto. Qed.
Lemma passed_app a b : passed (a ++ b) = passed a ++ passed b.
Proof. apply flat_map_app. Qed.
Lemma passed_attempts text busy r wait : passed (attempts text wait busy r) = [].
Proof.
  revert wait. assert (Pp : forall w, passed (pause w) = []) by (intro w; unfold pause; destruct (0 <? w); auto).
  induction busy as [|b busy IH]; intro wait; cbn [attempts].
  - change (passed (match r with Lines _ => pause wait | NoReply _ => [] end) = []). destruct r; auto.
  - change (passed (pause wait ++ ESleep (wait + 2) :: attempts text (wait + 2) busy r) = []). rewrite passed_app, Pp. apply (IH (wait + 2)).
Qed.
Lemma failures_app a b : failures (a ++ b) <-> failures a \/ failures b.
Proof.
  unfold failures. setoid_rewrite in_app_iff. split.
  - intros (t & r & [H|H] & F); [left|right]; eauto.
  - intros [(t & r & H & F)|(t & r & H & F)]; eauto 6.
Qed.
Lemma outcome_err_failing data r e : outcome data r (Err e) -> not_busy r -> failing r.
Proof.
  intros O NB. split; auto. intros ls -> (b & l & -> & [G1 G2]). inversion O; subst.
  - destruct b; discriminate.
  - match goal with E : _ ++ [_] = _ ++ [_] |- _ => apply app_inj_tail in E as [_ E]; subst end. apply G1. eapply cm_is_error; eauto.
  - match goal with E : _ ++ [_] = _ ++ [_] |- _ => apply app_inj_tail in E as [_ E]; subst end. auto.
  - match goal with E : _ ++ [_] = _ ++ [_] |- _ => apply app_inj_tail in E as [_ E]; subst end. apply G2. reflexivity.
Qed.

(** one command *)
Definition went (d : device) (text : str) (x : res (list str)) (evs : list event) (d' : device) : Prop :=
  match x with
  | Ok ls => good_answer ls /\ answers d text (Lines ls) d'
  | Err _ => d' = d /\ failures evs
  end.
Lemma write_dev data w x w' : write data w = Done x w' ->
  exists evs, trace w' = trace w ++ evs /\ passed evs = [] /\ (exists v, dev w' = set_writeWait v (dev w)) /\
    forall d d', plays d evs d' -> went d (data ++ [13]) x evs d'.
Proof.
  intro H. apply write_done in H as (busy & codes & r & E & B & NB & O & D & T).
  exists (attempts (data ++ CR) (writeWait (dev w)) busy r). split; auto. split; [apply passed_attempts|]. split; [eauto|].
  intros d d' P. apply (plays_attempts _ _ _ B) in P. destruct x as [ls|e]; cbn.
  - apply outcome_ok in O as [-> (l0 & l & -> & G)]. split; auto. exists l0, l. auto.
  - pose proof (outcome_err_failing _ _ _ O NB) as F. split; [eapply answers_still; eauto; apply F|].
    exists (data ++ CR), r. split; auto. apply attempts_has.
Qed.

(** the texts *)
Lemma answers_inv d text r d' : answers d text r d' -> forall ls, r = Lines ls -> good_answer ls ->
  (exists mem, ~ In 34 mem /\ text = lit "AT+CPMS=" ++ 34 :: mem ++ [34; 13] /\ d' = mk_device mem (stored d)) \/
  (exists ds content, digits ds /\ text = lit "AT+CMGR=" ++ ds ++ [13] /\ stored d (sel d) (dec_value ds) = Some content /\ ls = content ++ [lit "OK"] /\ d' = d) \/
  (exists ds, digits ds /\ text = lit "AT+CMGD=" ++ ds ++ lit ",0" ++ [13] /\ d' = mk_device (sel d) (put (stored d) (sel d) (dec_value ds) None)).
Proof.
  intros [text0 code r0 B|text0 r0 F|mem ls N G|ds content D C|ds ls D G] ls' E G'.
  - exfalso. eapply busy_no_good; eauto.
  - exfalso. eapply F; eauto.
  - left. eauto.
  - right. left. injection E as <-. exists ds, content. auto 6.
  - right. right. eauto.
Qed.
Lemma select_answer d mem ls d' : good_answer ls -> answers d ((lit "AT+CPMS=""" ++ mem ++ lit """") ++ [13]) (Lines ls) d' ->
  d' = mk_device mem (stored d) \/ In 34 mem.
Proof.
  intros G H. destruct (in_dec Z.eq_dec 34 mem) as [I|N]; [auto|left].
  apply (answers_inv _ _ _ _ H _ eq_refl) in G as [(mem' & N' & E & ->)|[(ds & content & _ & E & _)|(ds & _ & E & _)]]; try discriminate.
  appn_in E. cbn in E. injection E as E. apply (noquote 34) in E as [-> _]; auto.
Qed.
Lemma read_answer d ds ls d' : digits ds -> good_answer ls -> answers d ((lit "AT+CMGR=" ++ ds) ++ [13]) (Lines ls) d' ->
  d' = d /\ exists content, stored d (sel d) (dec_value ds) = Some content /\ ls = content ++ [lit "OK"].
Proof.
  intros [N F] G H.
  apply (answers_inv _ _ _ _ H _ eq_refl) in G as [(mem' & N' & E & ->)|[(ds' & content & [N' F'] & E & C & -> & ->)|(ds' & _ & E & _)]]; try discriminate.
  appn_in E. cbn in E. injection E as E. split; auto. exists content. apply (nodigit 13) in E as [-> _]; auto.
Qed.
Lemma delete_answer d ds ls d' : digits ds -> good_answer ls -> answers d ((lit "AT+CMGD=" ++ ds ++ lit ",0") ++ [13]) (Lines ls) d' ->
  d' = mk_device (sel d) (put (stored d) (sel d) (dec_value ds) None).
Proof.
  intros [N F] G H.
  apply (answers_inv _ _ _ _ H _ eq_refl) in G as [(mem' & N' & E & ->)|[(ds' & content & _ & E & _)|(ds' & [N' F'] & E & ->)]]; try discriminate.
  appn_in E. cbn in E. injection E as E. apply (nodigit 44) in E as [-> _]; auto.
Qed.

(** ** The methods *)
Lemma select_dev mem w x w' : ~ In 34 mem -> setSmsMemory (Some mem) None w = Done x w' ->
  exists evs, trace w' = trace w ++ evs /\ passed evs = [] /\ smsTextMode (dev w') = smsTextMode (dev w) /\
    forall d d', in_sync (dev w) d -> plays d evs d' ->
      in_sync (dev w') d' /\ stored d' = stored d /\ match x with Ok _ => sel d' = mem | Err _ => failures evs end.
Proof.
  intros Q H. unfold setSmsMemory in H. unfold mbind at 1, get in H. destruct (negb (opt_str_eqb (Some mem) (memRead (dev w)))) eqn:E.
  - apply bind_done in H as [(ls & w1 & H1 & H)|(e & H1 & ->)].
    + apply write_dev in H1 as (evs & T & Pa & (v & D) & Pl). unfold modify in H. injection H as <- <-. cbn [trace dev]. exists evs. split; auto. split; auto.
      rewrite D. split; auto. intros d d' S P. apply Pl in P as [G A]. apply select_answer in A as [->|]; auto; [|tauto]. cbn. split; auto.
      intros y [= <-]. auto.
    + apply write_dev in H1 as (evs & T & Pa & (v & D) & Pl). exists evs. split; auto. split; auto. rewrite D. split; auto.
      intros d d' S P. apply Pl in P as [-> F]. auto.
  - unfold ret in H. injection H as <- <-. exists []. rewrite app_nil_r. split; auto. split; auto. split; auto. intros d d' S P. inversion P; subst.
    split; auto. split; auto. apply negb_false_iff in E. unfold opt_str_eqb in E. destruct (memRead (dev w)) as [y|] eqn:Y; [|discriminate].
    destruct (str_eqb_spec mem y); [subst|discriminate]. apply S; auto.
Qed.
Lemma read_dev mem ds w x w' : ~ In 34 mem -> digits ds -> readStoredSms ds (Some mem) w = Done x w' ->
  exists evs, trace w' = trace w ++ evs /\ passed evs = [] /\ smsTextMode (dev w') = smsTextMode (dev w) /\
    forall d d', in_sync (dev w) d -> plays d evs d' ->
      in_sync (dev w') d' /\ stored d' = stored d /\
      match x with
      | Ok s => sel d' = mem /\ exists content, stored d mem (dec_value ds) = Some content /\ handed_as (smsTextMode (dev w)) content s
      | Err _ => failures evs \/ exists content, stored d mem (dec_value ds) = Some content /\ forall s, ~ reads_as (smsTextMode (dev w)) content s
      end.
Proof.
  intros Q Ds H. unfold readStoredSms in H. apply bind_done in H as [([] & w1 & H1 & H)|(e & H1 & ->)].
  - apply (select_dev _ _ _ _ Q) in H1 as (e1 & T1 & P1 & M1 & S1). apply bind_done in H as [(ls & w2 & H2 & H)|(e & H2 & ->)].
    + apply write_dev in H2 as (e2 & T2 & P2 & (v & D2) & S2). unfold mbind, get, lift in H. injection H as H <-.
      exists (e1 ++ e2). rewrite app_assoc, <- T1. split; auto. rewrite passed_app, P1, P2. split; auto. rewrite D2. split; [exact M1|].
      intros d d' S P. apply plays_app in P as (d1 & Pa & Pb). apply (S1 _ _ S) in Pa as (Sy & St & Se). apply S2 in Pb as [G A].
      apply (read_answer _ _ _ _ Ds G) in A as (-> & content & C & ->). rewrite Se, St in C. split; [exact Sy|]. split; auto.
      rewrite D2 in H. change (smsTextMode (set_writeWait v (dev w1))) with (smsTextMode (dev w1)) in H. rewrite M1 in H.
      destruct x as [s|e].
      * split; auto. exists content. split; auto. split.
        -- intros s' R. apply (reads_ok _ _ _ (lit "OK")) in R. congruence.
        -- intro Md. rewrite Md in H. apply read_pdu_inv. auto.
      * right. exists content. split; auto. intros s R. apply (reads_ok _ _ _ (lit "OK")) in R. congruence.
    + apply write_dev in H2 as (e2 & T2 & P2 & (v & D2) & S2). exists (e1 ++ e2). rewrite app_assoc, <- T1. split; auto. rewrite passed_app, P1, P2. split; auto.
      rewrite D2. split; [exact M1|]. intros d d' S P. apply plays_app in P as (d1 & Pa & Pb). apply (S1 _ _ S) in Pa as (Sy & St & Se). apply S2 in Pb as [-> F].
      split; [exact Sy|]. split; auto. left. apply failures_app. auto.
  - apply (select_dev _ _ _ _ Q) in H1 as (e1 & T1 & P1 & M1 & S1). exists e1. split; auto. split; auto. split; auto.
    intros d d' S P. apply (S1 _ _ S) in P as (Sy & St & Se). auto.
Qed.
Lemma delete_dev ds w x w' : digits ds -> deleteStoredSms ds None w = Done x w' ->
  exists evs, trace w' = trace w ++ evs /\ passed evs = [] /\ smsTextMode (dev w') = smsTextMode (dev w) /\
    forall d d', in_sync (dev w) d -> plays d evs d' ->
      in_sync (dev w') d' /\ sel d' = sel d /\
      match x with
      | Ok _ => stored d' = put (stored d) (sel d) (dec_value ds) None
      | Err _ => stored d' = stored d /\ failures evs
      end.
Proof.
  intros Ds H. unfold deleteStoredSms, setSmsMemory in H. unfold mbind at 1, mbind at 1, get in H. cbn [ret] in H.
  apply bind_done in H as [(ls & w1 & H1 & H)|(e & H1 & ->)].
  - apply write_dev in H1 as (evs & T & P & (v & D) & S). injection H as <- <-. exists evs. split; auto. split; auto. rewrite D. split; auto.
    intros d d' Sy Pl. apply S in Pl as [G A]. apply (delete_answer _ _ _ _ Ds G) in A as ->. split; [exact Sy|]. auto.
  - apply write_dev in H1 as (evs & T & P & (v & D) & S). exists evs. split; auto. split; auto. rewrite D. split; auto.
    intros d d' Sy Pl. apply S in Pl as [-> F]. split; [exact Sy|]. auto.
Qed.

(** ** A notification *)
Definition notified (m : modem) (d : device) (mem : str) (i : Z) (x : res unit) (w : world) (d' : device) : Prop :=
  match x with
  | Ok _ => exists s content evs, trace w = evs ++ [ESms s] /\ passed evs = [] /\ plays d evs d' /\
      stored d mem i = Some content /\ handed_as (smsTextMode m) content s /\
      forall mem' j, stored d' mem' j = put (stored d) mem i None mem' j
  | Err _ => passed (trace w) = [] /\ (forall mem' j, stored d' mem' j = stored d mem' j) /\
      (failures (trace w) \/ exists content, stored d mem i = Some content /\ forall s, ~ reads_as (smsTextMode m) content s)
  end.
Lemma notification m d mem ds line sc x w d' : in_sync m d -> indication (lit "+CMTI:") mem ds line ->
  handleSmsReceived line (start m sc) = Done x w -> plays d (trace w) d' ->
  in_sync (dev w) d' /\ smsTextMode (dev w) = smsTextMode m /\ notified m d mem (dec_value ds) x w d'.
Proof.
  intros Sy I H Pl. pose proof I as (sp & nl & _ & _ & _ & Q & Ds & _). apply indication_match in I as (t & rest & E). rewrite <- cmti_is in E.
  unfold handleSmsReceived in H. rewrite E in H. unfold group in H. cbn [groups fst snd nth Nat.sub] in H.
  apply bind_done in H as [(s & w1 & H1 & H)|(e & H1 & ->)].
  - apply (read_dev _ _ _ _ _ Q Ds) in H1 as (e1 & T1 & P1 & M1 & S1). cbn [start trace dev app] in *.
    apply bind_done in H as [([] & w2 & H2 & H)|(e & H2 & ->)].
    + apply (delete_dev _ _ _ _ Ds) in H2 as (e2 & T2 & P2 & M2 & S2). injection H as <- <-. cbn [dev trace] in *.
      rewrite T2, T1 in Pl. rewrite T2, T1. apply plays_app in Pl as (d2 & Pl & Pt). pose proof Pl as Pl0. apply plays_app in Pl as (d1 & Pa & Pb).
      apply plays_sms in Pt as ->. apply (S1 _ _ Sy) in Pa as (Sy1 & St & Se & content & C & R). apply (S2 _ _ Sy1) in Pb as (Sy2 & Se2 & St2).
      split; auto. split; [congruence|]. exists s, content, (e1 ++ e2). split; auto. split; [rewrite passed_app, P1, P2; auto|]. split; auto. split; auto. split; auto.
      intros. rewrite St2, St, Se. auto.
    + apply (delete_dev _ _ _ _ Ds) in H2 as (e2 & T2 & P2 & M2 & S2). rewrite T2, T1 in Pl. apply plays_app in Pl as (d1 & Pa & Pb).
      apply (S1 _ _ Sy) in Pa as (Sy1 & St & Se & content & C & R). apply (S2 _ _ Sy1) in Pb as (Sy2 & Se2 & St2 & F).
      split; auto. split; [congruence|]. unfold notified. rewrite T2, T1, passed_app, P1, P2. split; auto. split; [intros; rewrite St2, St; auto|].
      left. apply failures_app. auto.
  - apply (read_dev _ _ _ _ _ Q Ds) in H1 as (e1 & T1 & P1 & M1 & S1). cbn [start trace dev app] in *. rewrite T1 in Pl.
    apply (S1 _ _ Sy) in Pl as (Sy1 & St & F). split; auto. split; auto. unfold notified. rewrite T1, P1. split; auto. split; [intros; rewrite St; auto|auto].
Qed.
Lemma no_notification m line sc : (forall mem ds, ~ indication (lit "+CMTI:") mem ds line) -> handleSmsReceived line (start m sc) = Done (Ok tt) (start m sc).
Proof. intro N. unfold handleSmsReceived. rewrite cmti_is, indication_nomatch; auto. Qed.

(** ** Sessions *)
Lemma put_ext c c' mem i x : (forall m j, c m j = c' m j) -> forall m j, put c mem i x m j = put c' mem i x m j.
Proof. intros H m j. unfold put. destruct (same_cell m j mem i); auto. Qed.
Lemma replay_ext mode acts : forall c c' c1 c1', (forall m i, c m i = c' m i) -> (forall m i, c1 m i = c1' m i) -> replay mode c acts c1 -> replay mode c' acts c1'.
Proof.
  induction acts as [|a acts IH]; intros c c' c1 c1' E E1 H; inversion H; subst.
  - constructor. intros. rewrite <- E, <- E1. auto.
  - constructor; [rewrite <- E; auto|]. eapply IH; [apply put_ext; eauto| |]; eauto.
  - econstructor; [rewrite <- E; eauto|auto|]. eapply IH; [apply put_ext; eauto| |]; eauto.
Qed.
Lemma replay_app mode a : forall b c c1 c2, replay mode c a c1 -> replay mode c1 b c2 -> replay mode c (a ++ b) c2.
Proof.
  induction a as [|x a IH]; intros b c c1 c2 H1 H2; inversion H1; subst; cbn [app].
  - eapply replay_ext; [| |eauto]; auto.
  - constructor; eauto.
  - econstructor; eauto.
Qed.
Lemma session_replay m d acts m' d' : in_sync m d -> session m d acts m' d' ->
  in_sync m' d' /\ smsTextMode m' = smsTextMode m /\ replay (smsTextMode m) (stored d) acts (stored d').
Proof.
  intros Sy H. induction H as [|acts m1 d1 mem i content H (S1 & M1 & R1) E|acts m1 d1 line mem ds sc x w d2 H (S1 & M1 & R1) I Hn Pl|acts m1 d1 line sc x w d2 H (S1 & M1 & R1) I Hn Pl].
  - split; auto. split; auto. constructor. auto.
  - split; auto. split; auto. eapply replay_app; eauto. constructor; auto. constructor. auto.
  - destruct (notification _ _ _ _ _ _ _ _ _ S1 I Hn Pl) as (S2 & M2 & N). split; auto. split; [congruence|]. eapply replay_app; eauto. destruct x as [[]|e]; cbn [notified] in N.
    + destruct N as (s & content & evs & T & Pe & _ & C & R & St). rewrite T, passed_app, Pe. cbn. econstructor; eauto; [rewrite <- M1; auto|]. constructor. auto.
    + destruct N as (Pe & St & _). rewrite Pe. cbn. constructor. auto.
  - rewrite no_notification in Hn by auto. injection Hn as <- <-. cbn in *. inversion Pl; subst. auto.
Qed.
