(** Proofs about several calls of sendSms at the same time. *)
From Verif Require Import Base PduModel PduSpec SubmitProofs ModemCore ModemSpec WriteProofs MonadProofs SendSpec SendProofs TrackSpec TrackProofs CoverageSpec CoverageProofs
  SmsModel StoreSpec StoreLemmas ReadProofs StoreProofs SenderModel SenderSpec.

(** ** One attempt *)
Lemma with_some command term r x : not_busy r -> outcome command r x -> attempt_with command term r = Some x.
Proof. intros NB O. unfold attempt_with. rewrite (write_outcome _ _ _ _ _ _ x) by auto. auto. Qed.
Lemma with_none command term r code : busy_reply code r -> attempt_with command term r = None.
Proof.
  intro B. assert (A : all_busy [r] [code]) by (constructor; [exact B|constructor]). unfold attempt_with. destruct (write_stuck command term [r] [code] A modem_init []) as (w & E & _). rewrite E. auto.
Qed.
Lemma with_cases command term r : (exists code, busy_reply code r /\ attempt_with command term r = None) \/
  (exists ls, attempt_with command term r = Some (Ok ls) /\ r = Lines ls /\ good_answer ls) \/
  (exists e, attempt_with command term r = Some (Err e) /\ failing r).
Proof.
  destruct (reply_cases command r) as [(code & B)|(NB & x & O)]; [left; exists code; split; auto; eapply with_none; eauto|right].
  pose proof (with_some _ term _ _ NB O) as A. destruct x as [ls|e].
  - left. exists ls. split; auto. apply outcome_ok in O as [-> (l0 & l & -> & G)]. split; auto. exists l0, l. auto.
  - right. exists e. split; auto. eapply outcome_err_failing; eauto.
Qed.
Lemma with_good command term ls : good_answer ls -> attempt_with command term (Lines ls) = Some (Ok ls).
Proof. intros (b & l & -> & G). apply with_some; [apply good_not_busy; auto|constructor; auto]. Qed.

(** ** The modem *)
Lemma not_end (a b : str) : a ++ [26] <> b ++ [13].
Proof. intro E. apply app_inj_tail in E as [_ E]. discriminate E. Qed.
(** a good answer to the text of a message: it has been accepted *)
Lemma takes_text p b ls p' a : good_answer ls -> takes p (b ++ [26]) (Lines ls) p' a ->
  exists c, p = Prompted c false /\ p' = Idle /\ a = Some (c, b).
Proof.
  intros G T. remember (b ++ [26]) as text eqn:E. remember (Lines ls) as r eqn:Er.
  destruct T as [c l A G'|text r H|c r A|c b' l G'|c sp b' r H|c sp t].
  - symmetry in E. destruct (not_end _ _ E).
  - destruct (H ls Er G).
  - symmetry in E. destruct (not_end _ _ E).
  - apply app_inj_tail in E as [-> _]. exists c. auto.
  - destruct (H ls Er G).
  - symmetry in E. destruct (not_end _ _ E).
Qed.
Lemma takes_text_bad p b r p' a : (forall ls, r = Lines ls -> ~ good_answer ls) -> takes p (b ++ [26]) r p' a -> p' = Idle /\ a = None.
Proof.
  intros Hb T. remember (b ++ [26]) as text eqn:E.
  destruct T as [c l A G'|text r H|c r A|c b' l G'|c sp b' r H|c sp t]; auto.
  - destruct (Hb _ eq_refl G').
  - destruct (Hb _ eq_refl G').
  - symmetry in E. destruct (not_end _ _ E).
Qed.
(** a command is not a message; a good answer means that it was idle *)
Lemma takes_command p c r p' a : takes p (c ++ [13]) r p' a -> a = None /\
  match p with
  | Prompted c' sp => p' = Prompted c' true /\ r = NoReply []
  | Idle => (p' = Idle /\ (~ announcement c \/ forall ls, r = Lines ls -> ~ good_answer ls)) \/ (p' = Prompted c false /\ announcement c /\ exists ls, r = Lines ls /\ good_answer ls)
  end.
Proof.
  intro T. remember (c ++ [13]) as text eqn:E.
  destruct T as [c' l A G'|text r H|c' r A|c' b' l G'|c' sp b' r H|c' sp t]; auto.
  - apply app_inj_tail in E as [-> _]. split; auto. right. split; auto. split; auto. eauto.
  - apply app_inj_tail in E as [-> _]. auto.
  - destruct (not_end _ _ E).
  - destruct (not_end _ _ E).
Qed.
Lemma silence_not_good : forall ls, NoReply [] = Lines ls -> ~ good_answer ls. Proof. intros ls E. discriminate E. Qed.
Lemma busy_not_good code r : busy_reply code r -> forall ls, r = Lines ls -> ~ good_answer ls.
Proof. intros B. eapply busy_no_good; eauto. Qed.

(** ** Parts *)
Lemma parts_spec mode j ref ps : parts_of mode j ref = Ok ps -> message_parts mode j ref ps.
Proof.
  unfold parts_of, message_parts. destruct mode.
  - intro E. injection E as <-. reflexivity.
  - intro E. apply SubmitProofs.bind_ok in E as (pdus & Ep & E). injection E as <-. exists pdus. split; auto.
    destruct (pdus_fine _ _ _ _ _ Ep) as [_ F]. clear Ep. induction F as [|p pdus [O L] _ IH]; constructor; auto. cbn. split.
    + exists (str_of_Z (pdu_tpduLength p)). split; auto. apply str_of_Z_decimal; auto.
    + apply pdu_str_hex. auto.
Qed.
Lemma parts_announce mode j ref ps p : parts_of mode j ref = Ok ps -> In p ps -> announcement (fst p).
Proof.
  unfold parts_of. destruct mode.
  - intros E Hp. injection E as <-. destruct Hp as [<-|[]]. exists (34 :: j_number j ++ [34]). reflexivity.
  - intros E Hp. apply SubmitProofs.bind_ok in E as (pdus & Ep & E). injection E as <-. apply in_map_iff in Hp as (q & <- & _). cbn. eexists. reflexivity.
Qed.
Lemma parts_nonempty mode j ref ps : parts_of mode j ref = Ok ps -> ps <> [].
Proof.
  unfold parts_of. destruct mode; intro E.
  - injection E as <-. discriminate.
  - apply SubmitProofs.bind_ok in E as (pdus & Ep & E). injection E as <-. destruct (pdus_fine _ _ _ _ _ Ep) as [N _]. destruct pdus; [congruence|discriminate].
Qed.

(** ** Logs *)
Lemma accepted_app i a b : accepted_of i (a ++ b) = accepted_of i a ++ accepted_of i b.
Proof. unfold accepted_of. apply flat_map_app. Qed.
Lemma accepted_told i r c : accepted_of i [LTold r c] = []. Proof. reflexivity. Qed.
Lemma accepted_none i who t r : accepted_of i [LPut who t r None] = [].
Proof. unfold accepted_of. cbn. destruct who; auto. Qed.
Lemma accepted_here i t r a : accepted_of i [LPut (Some i) t r (Some a)] = [a].
Proof. unfold accepted_of. cbn. rewrite Nat.eqb_refl. auto. Qed.
Lemma accepted_else i k t r a : k <> i -> accepted_of i [LPut (Some k) t r a] = [].
Proof. intro N. unfold accepted_of. cbn. destruct a; auto. apply Nat.eqb_neq in N. rewrite N. auto. Qed.

(** ** What has been accepted of each message *)
(** [acc]: of what is written in [st] and before *)
Section Progress.
  Context (polite : Prop) (mode : bool) (j : job).
  Definition as_sent (acc pre : list (str * str)) : Prop := map snd acc = map snd pre /\ (polite -> acc = pre).
  Definition whole (acc : list (str * str)) : Prop := exists ref ps, parts_of mode j ref = Ok ps /\ as_sent acc ps.
  Definition progress (st : stage) (acc : list (str * str)) : Prop :=
    match st with
    | Encode => acc = []
    | Announce p ps | Transmit p ps => exists ref pre, parts_of mode j ref = Ok (pre ++ p :: ps) /\ as_sent acc pre
    | Over (Err _) => acc = [] \/ exists ref pre post, parts_of mode j ref = Ok (pre ++ post) /\ as_sent acc pre
    | _ => whole acc
    end.
  Lemma progress_quiet h st h' st' acc : sender_step mode j h st None h' st' -> progress st acc -> progress st' acc.
  Proof.
    intros T. remember None as w eqn:Ew. destruct T as [h|h p ps r|h p ps r|h answer L|h answer line e L P|h answer line n L P|h n|h n|h n obj|h obj|h obj|h obj e Hs|h obj e Hs|h obj|h obj];
      try discriminate Ew; cbn [progress]; intro P'; auto.
    - subst acc. destruct (parts_of mode j (sh_ref h)) as [ps|e] eqn:E; [|left; auto]. destruct ps as [|p ps].
      + destruct (parts_nonempty _ _ _ _ E eq_refl).
      + exists (sh_ref h), []. split; auto. split; auto.
    - right. destruct P' as (ref & ps & E & M). exists ref, ps, []. rewrite app_nil_r. auto.
    - right. destruct P' as (ref & ps & E & M). exists ref, ps, []. rewrite app_nil_r. auto.
    - destruct (255 <? sh_ref h); auto.
    - destruct (j_wait j); auto.
    - destruct (sh_event h); auto. right. destruct P' as (ref & ps & E & M). exists ref, ps, []. rewrite app_nil_r. auto.
    - right. destruct P' as (ref & ps & E & M). exists ref, ps, []. rewrite app_nil_r. auto.
  Qed.
  (** the text of the part [p] is accepted as [(c, snd p)] *)
  Lemma progress_put h st text r h' st' p p' a acc : sender_step mode j h st (Some (text, r)) h' st' -> takes p text r p' a ->
    (polite -> forall q qs c, st = Transmit q qs -> p = Prompted c false -> c = fst q) ->
    progress st acc -> progress st' (acc ++ match a with Some x => [x] | None => [] end).
  Proof.
    intros T. remember (Some (text, r)) as w eqn:Ew. destruct T as [h|h q qs r'|h q qs r'|h answer L|h answer line e L P|h answer line n L P|h n|h n|h n obj|h obj|h obj|h obj e Hs|h obj e Hs|h obj|h obj];
      try discriminate Ew; injection Ew as <- <-; intros Tk Hf P'; cbn [progress] in P'; destruct P' as (ref & pre & E & M).
    - apply takes_command in Tk as [-> _]. rewrite app_nil_r.
      destruct (with_cases (fst q) CR r') as [(code & B & ->)|[(ls & -> & _)|(e & -> & _)]]; cbn [proceed progress]; eauto.
      right. exists ref, pre, (q :: qs). auto.
    - destruct (with_cases (snd q) CTRL_Z r') as [(code & B & ->)|[(ls & -> & -> & G)|(e & -> & F)]]; cbn [proceed progress].
      + apply takes_text_bad in Tk as [_ ->]; [|eapply busy_not_good; eauto]. rewrite app_nil_r. eauto.
      + apply takes_text in Tk as (c & -> & _ & ->); auto. 
        assert (M' : as_sent (acc ++ [(c, snd q)]) (pre ++ [q])).
        { destruct M as [M1 M2]. split; [rewrite !map_app, M1; auto|]. intro Po. rewrite (M2 Po), (Hf Po q qs c eq_refl eq_refl). destruct q; auto. }
        destruct qs as [|q' qs]; cbn [continue progress].
        * exists ref, (pre ++ [q]). auto.
        * exists ref, (pre ++ [q]). rewrite <- app_assoc. auto.
      + destruct F as [_ F]. apply takes_text_bad in Tk as [_ ->]; auto. rewrite app_nil_r. right. exists ref, pre, (q :: qs). auto.
  Qed.
End Progress.
Lemma progress_weaken (P Q : Prop) mode j st acc : (Q -> P) -> progress P mode j st acc -> progress Q mode j st acc.
Proof.
  intro QP. assert (A : forall pre, as_sent P acc pre -> as_sent Q acc pre) by (intros pre [A B]; split; auto).
  destruct st as [|p ps|p ps|a|n|n|n|obj|obj|obj e|obj|obj|x]; cbn; auto; try (intros (ref & qs & E & M); exists ref, qs; auto; fail).
  destruct x; auto; [intros (ref & ps & E & M); exists ref, ps; auto|].
  intros [->|(ref & pre & post & E & M)]; [left; auto|right; exists ref, pre, post; auto].
Qed.

(** ** Whose turn it is *)
Definition transmitting (ts : list thread) (i : nat) (c : str) : Prop := exists j p ps, nth_error ts i = Some (Sending j (Transmit p ps)) /\ fst p = c.
Definition sole (s : system) : Prop :=
  match sy_port s with
  | Idle => forall i c, ~ transmitting (sy_threads s) i c
  | Prompted c _ => exists i, transmitting (sy_threads s) i c /\ forall k c', transmitting (sy_threads s) k c' -> k = i
  end.
Lemma nth_snoc {A} (l : list A) x i y : nth_error (l ++ [x]) i = Some y -> nth_error l i = Some y \/ (i = length l /\ y = x).
Proof.
  intro E. destruct (Nat.lt_ge_cases i (length l)) as [H|H].
  - rewrite nth_error_app1 in E by auto. auto.
  - rewrite nth_error_app2 in E by auto. destruct (i - length l)%nat eqn:D.
    + injection E as <-. right. split; auto. lia.
    + destruct n; discriminate E.
Qed.
Lemma nth_snoc_old {A} (l : list A) x i y : nth_error l i = Some y -> nth_error (l ++ [x]) i = Some y.
Proof. intro E. rewrite nth_error_app1; auto. apply nth_error_Some. congruence. Qed.
Lemma nth_update {A} (l : list A) k y i x0 x : nth_error l k = Some x0 -> nth_error (update l k (fun _ => y)) i = Some x ->
  (i = k /\ x = y) \/ (i <> k /\ nth_error l i = Some x).
Proof.
  intros E0 E. rewrite update_nth in E. destruct (Nat.eqb_spec k i) as [->|N]; [|right; auto]. rewrite E0 in E. injection E as <-. auto.
Qed.
Lemma nth_update_here {A} (l : list A) k y x0 : nth_error l k = Some x0 -> nth_error (update l k (fun _ => y)) k = Some y.
Proof. intro E. rewrite update_nth, Nat.eqb_refl, E. auto. Qed.
Lemma nth_update_else {A} (l : list A) k y i : i <> k -> nth_error (update l k (fun _ => y)) i = nth_error l i.
Proof. intro N. rewrite update_nth. destruct (Nat.eqb_spec k i); [congruence|auto]. Qed.

(** no thread begins or ends to transmit *)
Lemma transmitting_same ts ts' : (forall i c, transmitting ts' i c <-> transmitting ts i c) -> forall h h' p, sole (mk_system h p ts) -> sole (mk_system h' p ts').
Proof.
  intros H h h' p U. unfold sole in *. cbn in *. destruct p as [|c sp].
  - intros i c T. apply H in T. exact (U i c T).
  - destruct U as (i & T & U). exists i. split; [apply H; auto|]. intros k c' T'. apply H in T'. eauto.
Qed.
Definition is_transmit (t : thread) : Prop := match t with Sending _ (Transmit _ _) => True | _ => False end.
Lemma transmitting_snoc ts t : ~ is_transmit t -> forall i c, transmitting (ts ++ [t]) i c <-> transmitting ts i c.
Proof.
  intros N i c. split; intros (j & p & ps & E & F).
  - apply nth_snoc in E as [E|[_ <-]]; [exists j, p, ps; auto|destruct (N I)].
  - exists j, p, ps. split; auto. apply nth_snoc_old. auto.
Qed.
Lemma transmitting_update ts k t0 t : nth_error ts k = Some t0 -> ~ is_transmit t0 -> ~ is_transmit t -> forall i c, transmitting (update ts k (fun _ => t)) i c <-> transmitting ts i c.
Proof.
  intros E0 N0 N i c. split; intros (j & p & ps & E & F).
  - apply (nth_update _ _ _ _ _ _ E0) in E as [[_ <-]|[_ E]]; [destruct (N I)|exists j, p, ps; auto].
  - exists j, p, ps. split; auto. rewrite nth_update_else; auto. intros ->. rewrite E0 in E. injection E as ->. destruct (N0 I).
Qed.
Lemma sole_step mode s l s' : sys_step mode s l s' -> Forall patient l -> (forall i j p ps, nth_error (sy_threads s) i = Some (Sending j (Announce p ps)) -> announcement (fst p)) -> sole s -> sole s'.
Proof.
  intros T Pt Ann U. destruct T as [h p ts j|h p ts r code|h p ts i j st h' st' E T|h p ts i j st text r h' st' p' a E T Tk|h p ts i r code st told h' st' E T|h p ts c r p' a Nc Tk].
  - apply (transmitting_same ts (ts ++ [Sending j Encode]) (transmitting_snoc ts (Sending j Encode) ltac:(intros [])) h h p U).
  - apply (transmitting_same ts (ts ++ [Reporting r code Lookup]) (transmitting_snoc ts (Reporting r code Lookup) ltac:(intros [])) h h p U).
  - refine (transmitting_same ts _ (transmitting_update ts i _ (Sending j st') E _ _) h h' p U).
    + remember None as w eqn:Ew. destruct T; try discriminate Ew; intros [].
    + remember None as w eqn:Ew. destruct T; try discriminate Ew; cbn; auto.
      * destruct (parts_of mode j (sh_ref h)) as [[|q qs]|]; auto.
      * destruct (255 <? sh_ref h); auto.
      * destruct (j_wait j); auto.
      * destruct (sh_event h); auto.
  - cbn [sy_threads] in Ann. apply Forall_inv in Pt. remember (Some (text, r)) as w eqn:Ew. destruct T as [h|h q qs r'|h q qs r'|h answer L|h answer line e L P|h answer line n L P|h n|h n|h n obj|h obj|h obj|h obj e Hs|h obj e Hs|h obj|h obj];
      try discriminate Ew; injection Ew as <- <-.
    + apply takes_command in Tk as [-> Tk]. specialize (Ann i j q qs E).
      assert (Same : forall st', ~ is_transmit (Sending j st') -> p' = p \/ (exists c sp sp', p = Prompted c sp /\ p' = Prompted c sp') ->
        sole (mk_system h p' (update ts i (fun _ => Sending j st')))).
      { intros st' N Hp. assert (U1 := transmitting_same ts _ (transmitting_update ts i _ (Sending j st') E ltac:(intros []) N) h h p U). destruct Hp as [->|(c & sp & sp' & -> & ->)]; auto. }
      destruct p as [|c sp].
      * destruct Tk as [[-> Hb]|(-> & _ & ls & -> & G)].
        -- destruct (with_cases (fst q) CR r') as [(code & B & ->)|[(ls & -> & -> & G)|(e & -> & _)]]; cbn [proceed]; try (apply Same; cbn; auto; fail).
           destruct Hb as [Hb|Hb]; [destruct (Hb Ann)|destruct (Hb ls eq_refl G)].
        -- rewrite with_good by auto. cbn [proceed]. exists i. split.
           ++ exists j, q, qs. split; auto. eapply nth_update_here; eauto.
           ++ intros k c' (j' & p1 & ps1 & E1 & F1). cbn [sy_threads] in E1. destruct (Nat.eq_dec k i) as [->|N]; auto. rewrite nth_update_else in E1 by auto.
              destruct (U k (fst p1)). exists j', p1, ps1. auto.
      * destruct Tk as [-> ->]. replace (attempt_with (fst q) CR (NoReply [])) with (Some (@Err (list str) (TimeoutException None))) by (unfold attempt_with; reflexivity).
        cbn [proceed]. apply Same; cbn; eauto 10.
    + assert (Pb : not_busy r') by (apply Pt; eexists; reflexivity).
      assert (Gone : forall st', ~ is_transmit (Sending j st') -> sole (mk_system h Idle (update ts i (fun _ => Sending j st')))).
      { intros st' N k c (j' & p1 & ps1 & E1 & F1). cbn [sy_threads] in E1. apply (nth_update _ _ _ _ _ _ E) in E1 as [[-> E1]|[Nk E1]]; [injection E1 as <- <-; destruct (N I)|].
        unfold sole in U. cbn in U. assert (T1 : transmitting ts i (fst q)) by (exists j, q, qs; auto). assert (T2 : transmitting ts k c) by (exists j', p1, ps1; auto).
        destruct p as [|c0 sp]; [destruct (U _ _ T1)|]. destruct U as (m & _ & U). rewrite (U _ _ T1), (U _ _ T2) in Nk. congruence. }
      destruct (with_cases (snd q) CTRL_Z r') as [(code & B & ->)|[(ls & -> & -> & G)|(e & -> & F)]]; cbn [proceed].
      * destruct (Pb code B).
      * apply takes_text in Tk as (c & _ & -> & _); auto. apply Gone. destruct qs; intros [].
      * destruct F as [_ F]. apply takes_text_bad in Tk as [-> _]; auto.
  - refine (transmitting_same ts _ (transmitting_update ts i _ (Reporting r code st') E _ _) h h' p U); intros [].
  - apply takes_command in Tk as [_ Tk]. destruct p as [|c0 sp].
    + destruct Tk as [[-> _]|(_ & A & _)]; [exact U|destruct (Nc A)].
    + destruct Tk as [-> _]. exact U.
Qed.

(** ** The objects *)
Lemma heard_more i ls l r : Forall (fun l => ~ put_by i l) l -> last_heard i ls r -> last_heard i (ls ++ l) r.
Proof. intros F (l1 & t & a & l2 & -> & F2). exists l1, t, a, (l2 ++ l). rewrite <- app_assoc. split; auto. apply Forall_app. auto. Qed.
Definition same_sent (o o' : sent_sms) : Prop := s_number o' = s_number o /\ s_text o' = s_text o /\ s_reference o' = s_reference o.
Definition keeps_objs (h h' : shared) : Prop := forall k o, nth_error (sh_objs h) k = Some o -> exists o', nth_error (sh_objs h') k = Some o' /\ same_sent o o'.
Lemma keeps_refl h h' : sh_objs h' = sh_objs h -> keeps_objs h h'.
Proof. intros E k o H. rewrite E. exists o. split; auto. repeat split. Qed.
Lemma keeps_trans h1 h2 h3 : keeps_objs h1 h2 -> keeps_objs h2 h3 -> keeps_objs h1 h3.
Proof.
  intros A B k o H. apply A in H as (o1 & H & N1 & N2 & N3). apply B in H as (o2 & H & M1 & M2 & M3). exists o2. split; auto. repeat split; congruence.
Qed.
Lemma sender_keeps mode j h st w h' st' : sender_step mode j h st w h' st' -> keeps_objs h h'.
Proof.
  destruct 1; try (apply keeps_refl; reflexivity).
  intros k o H. cbn. exists o. split; [apply nth_snoc_old; auto|repeat split].
Qed.
Lemma report_keeps r code h st b h' st' : report_step r code h st b h' st' -> keeps_objs h h'.
Proof.
  destruct 1; try (apply keeps_refl; reflexivity).
  intros k o Hk. cbn. rewrite update_nth. destruct (Nat.eqb obj k); [|exists o; split; auto; repeat split]. rewrite Hk. cbn. eexists. split; [reflexivity|]. repeat split.
Qed.
Definition is_recorded (i : nat) (ls : list label) (h : shared) (j : job) (obj : nat) : Prop :=
  exists answer n o, last_heard i ls (Lines answer) /\ reference_in answer n /\ nth_error (sh_objs h) obj = Some o /\
    s_number o = j_number j /\ s_text o = j_text j /\ s_reference o = n.
Definition stage_says (i : nat) (ls : list label) (h : shared) (j : job) (st : stage) : Prop :=
  match st with
  | Number answer => last_heard i ls (Lines answer)
  | Check n | Reset n | Record_ n => exists answer, last_heard i ls (Lines answer) /\ reference_in answer n
  | Expect obj | Await obj | Waiting obj _ | Woken obj | GivenUp obj | Over (Ok obj) => is_recorded i ls h j obj
  | _ => True
  end.
Lemma says_more i ls l h h' j st : Forall (fun l => ~ put_by i l) l -> keeps_objs h h' -> stage_says i ls h j st -> stage_says i (ls ++ l) h' j st.
Proof.
  intros F K. assert (R : forall obj, is_recorded i ls h j obj -> is_recorded i (ls ++ l) h' j obj).
  { intros obj (answer & n & o & L & R & E & A & B & C). apply K in E as (o' & E & N1 & N2 & N3). exists answer, n, o'. split; [apply heard_more; auto|]. split; auto. split; auto. repeat split; congruence. }
  destruct st; cbn; auto; try (intros (answer & L & P); exists answer; split; [apply heard_more; auto|auto]; fail).
  - apply heard_more; auto.
  - destruct x; auto.
Qed.
Lemma reference_of answer line n : lineStartingWith (lit "+CMGS:") answer = Some line -> py_int 10 (skipn 7 line) = Ok n -> reference_in answer n.
Proof.
  intros L P. pose proof (first_cmgs_iff answer) as H. rewrite L in H. exists line. split; [exact H|]. apply py_int_iff. auto.
Qed.
Lemma says_quiet mode i ls h j st h' st' : sender_step mode j h st None h' st' -> stage_says i ls h j st -> stage_says i ls h' j st'.
Proof.
  intros T. pose proof (sender_keeps _ _ _ _ _ _ _ T) as K. remember None as w eqn:Ew. destruct T as [h|h p ps r|h p ps r|h answer L|h answer line e L P|h answer line n L P|h n|h n|h n obj|h obj|h obj|h obj e Hs|h obj e Hs|h obj|h obj];
    try discriminate Ew; intro H; cbn [stage_says] in *; auto.
  - destruct (parts_of mode j (sh_ref h)) as [[|q qs]|e] eqn:E; cbn; auto. destruct (parts_nonempty _ _ _ _ E eq_refl).
  - exists answer. split; auto. eapply reference_of; eauto.
  - destruct (255 <? sh_ref h); auto.
  - destruct H as (answer & L & R). subst obj. assert (Rc : is_recorded i ls (put_table (zset (sh_table h) n (length (sh_objs h))) (put_objs (sh_objs h ++ [mk_sent (j_number j) (j_text j) n None]) h)) j (length (sh_objs h))).
    { exists answer, n, (mk_sent (j_number j) (j_text j) n None). split; auto. split; auto. split; [|auto]. cbn. rewrite nth_error_app2, Nat.sub_diag; auto. }
    destruct (j_wait j); exact Rc.
  - destruct (sh_event h); cbn; auto.
Qed.
Lemma says_put mode i ls h j st text r h' st' a : sender_step mode j h st (Some (text, r)) h' st' -> stage_says i (ls ++ [LPut (Some i) text r a]) h' j st'.
Proof.
  intros T. remember (Some (text, r)) as w eqn:Ew. destruct T as [h|h q qs r'|h q qs r'|h answer L|h answer line e L P|h answer line n L P|h n|h n|h n obj|h obj|h obj|h obj e Hs|h obj e Hs|h obj|h obj];
    try discriminate Ew; injection Ew as <- <-.
  - destruct (with_cases (fst q) CR r') as [(code & B & ->)|[(l & -> & -> & G)|(e & -> & F)]]; cbn; auto.
  - destruct (with_cases (snd q) CTRL_Z r') as [(code & B & ->)|[(l & -> & -> & G)|(e & -> & F)]]; cbn; auto. destruct qs; cbn; auto.
    exists ls, (snd q ++ CTRL_Z), a, []. auto.
Qed.

(** ** The invariant *)
Record inv (mode : bool) (ls : list label) (s : system) : Prop := {
  iv_progress : forall i j st, nth_error (sy_threads s) i = Some (Sending j st) -> progress (Forall patient ls) mode j st (accepted_of i ls);
  iv_says : forall i j st, nth_error (sy_threads s) i = Some (Sending j st) -> stage_says i ls (sy_shared s) j st;
  iv_new : forall i, (length (sy_threads s) <= i)%nat -> accepted_of i ls = [] /\ Forall (fun l => ~ put_by i l) ls;
  iv_sole : Forall patient ls -> sole s }.
Lemma put_by_else i k t r a : i <> k -> Forall (fun l => ~ put_by i l) [LPut (Some k) t r a].
Proof. intro N. constructor; [|constructor]. intros (t' & r' & a' & E). congruence. Qed.
Lemma put_by_other i t r a : Forall (fun l => ~ put_by i l) [LPut None t r a].
Proof. constructor; [|constructor]. intros (t' & r' & a' & E). congruence. Qed.
Lemma put_by_told i r c : Forall (fun l => ~ put_by i l) [LTold r c].
Proof. constructor; [|constructor]. intros (t' & r' & a' & E). congruence. Qed.
Lemma inv_runs mode h ls s : runs mode (mk_system h Idle []) ls s -> inv mode ls s.
Proof.
  intros R. induction R as [|ls s1 l s2 R IH T].
  - constructor; cbn.
    + intros [|i]; discriminate.
    + intros [|i]; discriminate.
    + auto.
    + intros _ i c (j & p & ps & E & _). destruct i; discriminate E.
  - destruct IH as [Pr Sa Nw So].
    assert (Pr2 : forall i j st, nth_error (sy_threads s1) i = Some (Sending j st) -> progress (Forall patient (ls ++ l)) mode j st (accepted_of i ls)).
    { intros i j st E. eapply progress_weaken; [|eauto]. intro F. apply Forall_app in F. apply F. }
    assert (Ann : forall i j p ps, nth_error (sy_threads s1) i = Some (Sending j (Announce p ps)) -> announcement (fst p)).
    { intros i j p ps E. destruct (Pr _ _ _ E) as (ref & pre & Ep & _). eapply parts_announce; [exact Ep|]. apply in_or_app. right. left. auto. }
    assert (So2 : Forall patient (ls ++ l) -> sole s2).
    { intro F. apply Forall_app in F as [F1 F2]. eapply sole_step; eauto. }
    destruct T as [h0 p ts j|h0 p ts r code|h0 p ts i j st h' st' E T|h0 p ts i j st text r h' st' p' a E T Tk|h0 p ts i r code st told h' st' E T|h0 p ts c r p' a Nc Tk]; cbn [sy_threads sy_shared sy_port] in *.
    + rewrite app_nil_r in *. constructor; cbn [sy_threads sy_shared sy_port]; auto.
      * intros i j' st E. apply nth_snoc in E as [E|[-> E]]; [auto|]. injection E as -> ->. cbn. apply Nw. auto.
      * intros i j' st E. apply nth_snoc in E as [E|[-> E]]; [auto|]. injection E as -> ->. exact I.
      * intros i L. rewrite app_length in L. apply Nw. cbn in L. lia.
    + rewrite app_nil_r in *. constructor; cbn [sy_threads sy_shared sy_port]; auto.
      * intros i j' st E. apply nth_snoc in E as [E|[-> E]]; [auto|discriminate E].
      * intros i j' st E. apply nth_snoc in E as [E|[-> E]]; [auto|discriminate E].
      * intros i L. rewrite app_length in L. apply Nw. cbn in L. lia.
    + rewrite app_nil_r in *. constructor; cbn [sy_threads sy_shared sy_port]; auto.
      * intros k j' st0 E'. apply (nth_update _ _ _ _ _ _ E) in E' as [[-> E']|[N E']]; [|auto]. injection E' as -> ->. eapply progress_quiet; eauto.
      * intros k j' st0 E'. apply (nth_update _ _ _ _ _ _ E) in E' as [[-> E']|[N E']].
        -- injection E' as -> ->. eapply says_quiet; eauto.
        -- rewrite <- (app_nil_r ls). eapply says_more; [constructor|eapply sender_keeps; eauto|]. auto.
      * intros k L. rewrite update_length in L. auto.
    + constructor; cbn [sy_threads sy_shared sy_port]; auto.
      * intros k j' st0 E'. rewrite accepted_app. apply (nth_update _ _ _ _ _ _ E) in E' as [[-> E']|[N E']].
        -- injection E' as -> ->. replace (accepted_of i [LPut (Some i) text r a]) with (match a with Some x => [x] | None => [] end) by (destruct a; [rewrite accepted_here|rewrite accepted_none]; auto).
           eapply progress_put; eauto. intros F q qs c -> ->. apply Forall_app in F as [Hf1 _].
           specialize (So Hf1). unfold sole in So. cbn in So. destruct So as (m & (j0 & p0 & ps0 & E0 & F0) & U).
           assert (i = m) as -> by (apply (U i (fst q)); exists j, q, qs; auto). rewrite E in E0. injection E0 as <- <- <-. auto.
        -- rewrite accepted_else, app_nil_r by auto. auto.
      * intros k j' st0 E'. apply (nth_update _ _ _ _ _ _ E) in E' as [[-> E']|[N E']].
        -- injection E' as -> ->. eapply says_put; eauto.
        -- eapply says_more; [apply put_by_else; auto|eapply sender_keeps; eauto|]. auto.
      * intros k L. rewrite update_length in L. destruct (Nw k L) as [A F]. rewrite accepted_app, A, accepted_else.
        -- split; auto. apply Forall_app. split; auto. apply put_by_else. intros ->. apply nth_error_None in L. congruence.
        -- intros ->. apply nth_error_None in L. congruence.
    + assert (Al : forall k, accepted_of k (ls ++ (if told then [LTold r code] else [])) = accepted_of k ls) by (intro k; rewrite accepted_app; destruct told; cbn; apply app_nil_r).
      assert (Fl : forall k, Forall (fun l => ~ put_by k l) (if told then [LTold r code] else [])) by (intro k; destruct told; [apply put_by_told|constructor]).
      constructor; cbn [sy_threads sy_shared sy_port]; auto.
      * intros k j' st0 E'. rewrite Al. apply (nth_update _ _ _ _ _ _ E) in E' as [[-> E']|[N E']]; [discriminate E'|auto].
      * intros k j' st0 E'. apply (nth_update _ _ _ _ _ _ E) in E' as [[-> E']|[N E']]; [discriminate E'|]. eapply says_more; [auto|eapply report_keeps; eauto|]. auto.
      * intros k L. rewrite update_length in L. rewrite Al. destruct (Nw k L). split; auto. apply Forall_app. auto.
    + assert (Al : forall k, accepted_of k (ls ++ [LPut None (c ++ [13]) r a]) = accepted_of k ls) by (intro k; rewrite accepted_app; apply app_nil_r).
      constructor; cbn [sy_threads sy_shared sy_port]; auto.
      * intros k j' st0 E'. rewrite Al. auto.
      * intros k j' st0 E'. eapply says_more; [apply put_by_other|apply keeps_refl; auto|]. auto.
      * intros k L. rewrite Al. destruct (Nw k L). split; auto. apply Forall_app. split; auto. apply put_by_other.
Qed.

(** C79: what a call that has ended has sent *)
Theorem sent_all mode h ls s i j x : runs mode (mk_system h Idle []) ls s -> nth_error (sy_threads s) i = Some (Sending j (Over x)) ->
  match x with
  | Ok obj => exists reference ps answer n o, message_parts mode j reference ps /\ map snd (accepted_of i ls) = map snd ps /\ (Forall patient ls -> accepted_of i ls = ps) /\
      last_heard i ls (Lines answer) /\ reference_in answer n /\ nth_error (sh_objs (sy_shared s)) obj = Some o /\
      s_number o = j_number j /\ s_text o = j_text j /\ s_reference o = n
  | Err _ => accepted_of i ls = [] \/ exists reference done rest, message_parts mode j reference (done ++ rest) /\ map snd (accepted_of i ls) = map snd done /\
      (Forall patient ls -> accepted_of i ls = done)
  end.
Proof.
  intros R E. apply inv_runs in R as [Pr Sa _ _]. specialize (Pr _ _ _ E). specialize (Sa _ _ _ E). destruct x as [obj|e]; cbn in Pr, Sa.
  - destruct Pr as (ref & ps & Ep & M1 & M2). destruct Sa as (answer & n & o & A & B & C & D & F & G). exists ref, ps, answer, n, o. apply parts_spec in Ep. auto 12.
  - destruct Pr as [Pr|(ref & pre & post & Ep & M1 & M2)]; auto. right. exists ref, pre, post. apply parts_spec in Ep. auto.
Qed.

(** ** What comes before the text of a message *)
(** the last write was the announcement [c], by the thread [k]; [rest]: what has happened since *)
Definition announced (ls : list label) (k : nat) (c : str) (mid rest : list label) : Prop :=
  exists l0 r0, ls = l0 ++ LPut (Some k) (c ++ [13]) r0 None :: mid ++ rest /\ Forall no_write mid.
Definition port_inv (ls : list label) (s : system) : Prop :=
  match sy_port s with
  | Idle => True
  | Prompted c false => exists k mid, announced ls k c mid [] /\ (Forall patient ls -> transmitting (sy_threads s) k c)
  | Prompted c true => exists k mid who t more, announced ls k c mid (LPut who t (NoReply []) None :: more) /\
      (Forall patient ls -> who <> Some k /\ transmitting (sy_threads s) k c)
  end.
Lemma announced_more ls k c mid l : Forall no_write l -> announced ls k c mid [] -> announced (ls ++ l) k c (mid ++ l) [].
Proof.
  intros F (l0 & r0 & -> & M). exists l0, r0. split; [|apply Forall_app; auto]. rewrite !app_nil_r, <- app_assoc. auto.
Qed.
Lemma announced_past ls k c mid x more l : announced ls k c mid (x :: more) -> announced (ls ++ l) k c mid (x :: more ++ l).
Proof. intros (l0 & r0 & -> & M). exists l0, r0. split; auto. rewrite <- app_assoc. cbn. rewrite <- app_assoc. auto. Qed.
Lemma port_quiet ls l h p ts h' ts' : Forall no_write l -> (forall i c, transmitting ts i c -> transmitting ts' i c) ->
  port_inv ls (mk_system h p ts) -> port_inv (ls ++ l) (mk_system h' p ts').
Proof.
  intros F H. unfold port_inv. cbn. assert (Pp : Forall patient (ls ++ l) -> Forall patient ls) by (intro A; apply Forall_app in A; apply A). destruct p as [|c [|]]; auto.
  - intros (k & mid & who & t & more & A & B). exists k, mid, who, t, (more ++ l). split; [apply announced_past; auto|]. intro C. apply Pp in C. destruct (B C). auto.
  - intros (k & mid & A & B). exists k, (mid ++ l). split; [apply announced_more; auto|auto].
Qed.
Lemma transmitting_step mode h ts i j st h' st' : nth_error ts i = Some (Sending j st) -> sender_step mode j h st None h' st' ->
  forall k c, transmitting ts k c -> transmitting (update ts i (fun _ => Sending j st')) k c.
Proof.
  intros E T k c (j' & p & ps & E' & F). exists j', p, ps. split; auto. rewrite nth_update_else; auto. intros ->. rewrite E in E'. injection E' as -> ->. remember (Transmit p ps) as st eqn:Es. remember None as w eqn:Ew.
  destruct T; discriminate.
Qed.
(** a command written while a message is being taken *)
Lemma port_swallow ls h c sp ts who t h' ts' : (forall k c', transmitting ts k c' -> transmitting ts' k c' /\ who <> Some k) ->
  port_inv ls (mk_system h (Prompted c sp) ts) -> port_inv (ls ++ [LPut who t (NoReply []) None]) (mk_system h' (Prompted c true) ts').
Proof.
  intros H. unfold port_inv. cbn. assert (Pp : forall l, Forall patient (ls ++ l) -> Forall patient ls) by (intros l A; apply Forall_app in A; apply A). destruct sp.
  - intros (k & mid & who0 & t0 & more & A & B). exists k, mid, who0, t0, (more ++ [LPut who t (NoReply []) None]). split; [apply announced_past; auto|]. intro C. apply Pp in C. destruct (B C) as [B1 B2]. split; auto. apply H; auto.
  - intros (k & mid & (l0 & r0 & -> & M) & B). exists k, mid, who, t, []. split; [|intro C; apply Pp in C; specialize (B C); apply H in B; tauto].
    exists l0, r0. split; auto. rewrite app_nil_r, <- app_assoc. auto.
Qed.
Lemma port_step mode ls s l s' : sys_step mode s l s' ->
  (forall i j p ps, nth_error (sy_threads s) i = Some (Sending j (Announce p ps)) -> announcement (fst p)) -> port_inv ls s -> port_inv (ls ++ l) s'.
Proof.
  intros T Ann V. destruct T as [h p ts j|h p ts r code|h p ts i j st h' st' E T|h p ts i j st text r h' st' p' a E T Tk|h p ts i r code st told h' st' E T|h p ts c r p' a Nc Tk].
  - eapply port_quiet; [constructor| |exact V]. intros k c. apply transmitting_snoc. intros [].
  - eapply port_quiet; [constructor| |exact V]. intros k c. apply transmitting_snoc. intros [].
  - eapply port_quiet; [constructor| |exact V]. eapply transmitting_step; eauto.
  - cbn [sy_threads] in Ann. remember (Some (text, r)) as w eqn:Ew. destruct T as [h|h q qs r'|h q qs r'|h answer L|h answer line e L P|h answer line n L P|h n|h n|h n obj|h obj|h obj|h obj e Hs|h obj e Hs|h obj|h obj];
      try discriminate Ew; injection Ew as <- <-.
    + apply takes_command in Tk as [-> Tk]. specialize (Ann i j q qs E). destruct p as [|c sp].
      * destruct Tk as [[-> Hb]|(-> & _ & l & -> & G)]; [exact I|]. rewrite with_good by auto. cbn [proceed]. exists i, []. split; [exists ls, (Lines l); auto|]. intros _. exists j, q, qs. split; auto. eapply nth_update_here; eauto.
      * destruct Tk as [-> ->]. eapply port_swallow; [|exact V]. intros k c' (j' & p1 & ps1 & E1 & F1).
        assert (k <> i) by (intros ->; rewrite E in E1; discriminate E1). split; [|congruence]. exists j', p1, ps1. split; auto. rewrite nth_update_else; auto.
    + assert (p' = Idle) as ->; [|exact I]. destruct (with_cases (snd q) CTRL_Z r') as [(code & B & _)|[(l & _ & -> & G)|(e & _ & F)]].
      * apply takes_text_bad in Tk as [-> _]; auto. eapply busy_not_good; eauto.
      * apply takes_text in Tk as (c & _ & -> & _); auto.
      * destruct F as [_ F]. apply takes_text_bad in Tk as [-> _]; auto.
  - eapply port_quiet; [| |exact V]; [destruct told; repeat constructor|]. intros k c (j' & p1 & ps1 & E1 & F1). exists j', p1, ps1. split; auto. rewrite nth_update_else; auto. intros ->. rewrite E in E1. discriminate E1.
  - apply takes_command in Tk as [-> Tk]. destruct p as [|c0 sp].
    + destruct Tk as [[-> _]|(_ & A & _)]; [exact I|destruct (Nc A)].
    + destruct Tk as [-> ->]. eapply port_swallow; [|exact V]. intros k c' T. split; auto. discriminate.
Qed.
Lemma port_runs mode h ls s : runs mode (mk_system h Idle []) ls s -> port_inv ls s.
Proof.
  intros R. induction R as [|ls s1 l s2 R IH T]; [exact I|]. eapply port_step; eauto.
  intros i j p ps E. apply inv_runs in R as [Pr _ _ _]. destruct (Pr _ _ _ E) as (ref & pre & Ep & _). eapply parts_announce; [exact Ep|]. apply in_or_app. right. left. auto.
Qed.
Lemma split_last {A} (ls l l1 : list A) x l2 : (length l <= 1)%nat -> ls ++ l = l1 ++ x :: l2 -> (exists l2', ls = l1 ++ x :: l2') \/ (ls = l1 /\ l = [x] /\ l2 = []).
Proof.
  intros Hl E. destruct l as [|y [|z l]]; cbn in Hl; try lia.
  - rewrite app_nil_r in E. left. eauto.
  - destruct (exists_last (l := x :: l2) ltac:(discriminate)) as (l3 & z & Ez). rewrite Ez, app_assoc in E. apply app_inj_tail in E as [E ->].
    destruct l3 as [|x' l3].
    + cbn in Ez. injection Ez as -> ->. right. rewrite E, app_nil_r. auto.
    + cbn in Ez. injection Ez as <- ->. left. exists l3. auto.
Qed.
Lemma label_one mode s l s' : sys_step mode s l s' -> (length l <= 1)%nat.
Proof. destruct 1; cbn; auto. destruct told; auto. Qed.

(** C79: a message is accepted only right after its announcement *)
Theorem right_after mode h ls s l1 who t r c b l2 : runs mode (mk_system h Idle []) ls s -> ls = l1 ++ LPut who t r (Some (c, b)) :: l2 ->
  exists i k l0 r0 mid, who = Some i /\ t = b ++ [26] /\ l1 = l0 ++ LPut (Some k) (c ++ [13]) r0 None :: mid /\ Forall no_write mid /\ (Forall patient l1 -> k = i).
Proof.
  intros R. revert l2. induction R as [|ls s1 l s2 R IH T]; intros l2 E.
  - destruct l1; discriminate E.
  - apply split_last in E as [(l2' & E)|(-> & -> & ->)]; [eauto| |eapply label_one; eauto].
    pose proof (port_runs _ _ _ _ R) as V. pose proof (inv_runs _ _ _ _ R) as [_ _ _ So].
    inversion T as [| |h0 p ts i j st h' st' E0 T0|h0 p ts i j st text r' h' st' p' a E0 T0 Tk|h0 p ts i rr code st told h' st' E0 T0 Es El|h0 p ts c0 r' p' a Nc Tk]; subst.
    + remember (Some (t, r)) as w eqn:Ew. destruct T0 as [h1|h1 q qs r'|h1 q qs r'|h1 answer L|h1 answer line e L P|h1 answer line n L P|h1 n|h1 n|h1 n obj|h1 obj|h1 obj|h1 obj e Hs|h1 obj e Hs|h1 obj|h1 obj];
        try discriminate Ew; injection Ew as <- <-.
      * apply takes_command in Tk as [Tk _]. discriminate Tk.
      * destruct (with_cases (snd q) CTRL_Z r') as [(code & B & _)|[(l & _ & -> & G)|(e & _ & F)]].
        -- apply takes_text_bad in Tk as [_ Tk]; [discriminate Tk|]. eapply busy_not_good; eauto.
        -- apply takes_text in Tk as (c' & -> & -> & Ec); auto. injection Ec as <- ->.
           destruct V as (k & mid & (l0 & r0 & -> & M) & Hk). exists i, k, l0, r0, mid. split; auto. split; auto. rewrite app_nil_r in *. split; auto. split; auto.
           intro Pt. specialize (Hk Pt). specialize (So Pt). unfold sole in So. cbn in So. destruct So as (m & _ & U). rewrite (U _ _ Hk). symmetry. apply (U i (fst q)). exists j, q, qs. auto.
        -- destruct F as [_ F]. apply takes_text_bad in Tk as [_ Tk]; auto. discriminate Tk.
    + destruct told; discriminate El.
    + apply takes_command in Tk as [Tk _]. discriminate Tk.
Qed.
