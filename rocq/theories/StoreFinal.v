(** The theorems about the message store, in the form in which PropertiesStore.v
    states them. *)
From Verif Require Import Base RegexModel PduModel ModemCore ModemSpec WriteProofs MonadProofs SendSpec SendProofs TrackSpec CoverageSpec CoverageProofs
  SmsModel StoreSpec StoreLemmas ReadProofs StoreProofs ListSpec ListProofs ProcessProofs.

(** ** Reading and deleting one message *)
Lemma read_at mem ds m sc x w d d' : ~ In 34 mem -> digits ds -> in_sync m d -> readStoredSms ds (Some mem) (start m sc) = Done x w -> plays d (trace w) d' ->
  read_spec (smsTextMode m) mem (dec_value ds) d d' (trace w) x.
Proof.
  intros Q D Sy H Pl. apply (read_dev _ _ _ _ _ Q D) in H as (evs & T & _ & _ & K). cbn [start trace dev app] in *. rewrite T in *.
  apply (K _ _ Sy) in Pl as (_ & St & Hx). split; auto.
Qed.
Lemma read_current ds m sc x w d d' : digits ds -> readStoredSms ds None (start m sc) = Done x w -> plays d (trace w) d' ->
  read_spec (smsTextMode m) (sel d) (dec_value ds) d d' (trace w) x.
Proof.
  intros D H Pl. unfold readStoredSms in H. apply bind_done in H as [([] & w1 & H1 & H)|(e & H1 & E)]; [|discriminate H1].
  assert (w1 = start m sc) as -> by (unfold setSmsMemory, mbind, get in H1; cbn in H1; injection H1 as <-; auto). clear H1.
  apply bind_done in H as [(ls & w2 & H2 & H)|(e & H2 & ->)]; apply write_dev in H2 as (evs & T & _ & (v & Dv) & K); cbn [start trace dev app] in *.
  - unfold mbind, get, lift in H. injection H as H <-. rewrite T in *. apply K in Pl as [G A]. apply (read_answer _ _ _ _ D G) in A as (-> & content & C & ->).
    rewrite Dv in H. cbn [smsTextMode set_writeWait] in H. split; auto. destruct x as [s|e].
    + split; auto. exists content. split; auto. split.
      * intros s' R. apply (reads_ok _ _ _ (lit "OK")) in R. congruence.
      * intro Md. rewrite Md in H. apply read_pdu_inv. auto.
    + right. exists content. split; auto. intros s R. apply (reads_ok _ _ _ (lit "OK")) in R. congruence.
  - rewrite T in *. apply K in Pl as [-> F]. split; auto.
Qed.
Lemma delete_at mem ds m sc x w d d' : ~ In 34 mem -> digits ds -> in_sync m d -> deleteStoredSms ds (Some mem) (start m sc) = Done x w -> plays d (trace w) d' ->
  delete_spec mem (dec_value ds) d d' (trace w) x.
Proof.
  intros Q D Sy H Pl. unfold deleteStoredSms in H. apply bind_done in H as [([] & w1 & H1 & H)|(e & H1 & ->)].
  - apply (select_dev _ _ _ _ Q) in H1 as (e1 & T1 & _ & _ & S1). cbn [start trace dev app] in *.
    apply bind_done in H as [(ls & w2 & H2 & H)|(e & H2 & ->)]; apply write_dev in H2 as (e2 & T2 & _ & _ & S2).
    + injection H as <- <-. rewrite T2, T1 in *. apply plays_app in Pl as (d1 & Pa & Pb). apply (S1 _ _ Sy) in Pa as (_ & St & Se). apply S2 in Pb as [G A].
      apply (delete_answer _ _ _ _ D G) in A as ->. unfold delete_spec. intros mem' j. cbn [stored]. rewrite Se, St. reflexivity.
    + rewrite T2, T1 in *. apply plays_app in Pl as (d1 & Pa & Pb). apply (S1 _ _ Sy) in Pa as (_ & St & Se). apply S2 in Pb as [-> F].
      split; [intros; rewrite St; auto|]. apply failures_app. auto.
  - apply (select_dev _ _ _ _ Q) in H1 as (e1 & T1 & _ & _ & S1). cbn [start trace dev app] in *. rewrite T1 in *. apply (S1 _ _ Sy) in Pl as (_ & St & F).
    split; [intros; rewrite St; auto|auto].
Qed.

(** ** Crash points of a notification *)
Lemma last_unique {A} (P : A -> Prop) evs x pre y post : Forall P evs -> ~ P y -> evs ++ [x] = pre ++ y :: post -> pre = evs /\ y = x /\ post = [].
Proof.
  revert pre. induction evs as [|e evs IH]; intros pre F N E.
  - destruct pre as [|p pre]; cbn in E.
    + injection E as <- <-. auto.
    + injection E as <- E. destruct pre; discriminate.
  - inversion F as [|? ? Pe F']; subst. destruct pre as [|p pre]; cbn in E; [injection E as <- _; tauto|]. injection E as <- E. apply IH in E as (-> & -> & ->); auto.
Qed.
Definition not_sms (e : event) : Prop := match e with ESms _ => False | _ => True end.
Lemma passed_not evs : passed evs = [] <-> Forall not_sms evs.
Proof.
  split.
  - induction evs as [|e evs IH]; intro H; constructor; [|apply IH; destruct e; auto; discriminate]. destruct e; cbn; auto. discriminate.
  - induction 1 as [|e evs He F IH]; auto. destruct e; auto. destruct He.
Qed.
Lemma crash_notification m d mem ds line sc x w d' : in_sync m d -> indication (lit "+CMTI:") mem ds line ->
  handleSmsReceived line (start m sc) = Done x w -> plays d (trace w) d' -> forall pre s post, trace w = pre ++ ESms s :: post ->
  post = [] /\ passed pre = [] /\ exists d1 content, plays d pre d1 /\ stored d mem (dec_value ds) = Some content /\ handed_as (smsTextMode m) content s /\
    stored d1 mem (dec_value ds) = None.
Proof.
  intros Sy I H Pl pre s post T. destruct (notification _ _ _ _ _ _ _ _ _ Sy I H Pl) as (_ & _ & N). destruct x as [u|e]; cbn in N.
  - destruct N as (s' & content & evs & T' & Pe & Pl' & C & Ha & St). rewrite T' in T. assert (F := proj1 (passed_not evs) Pe).
    apply (last_unique not_sms _ _ _ _ _ F) in T as (-> & E & ->); [|intros []]. injection E as ->. split; auto. split; auto.
    exists d', content. split; auto. split; auto. split; auto. rewrite St. unfold put, same_cell. rewrite Z.eqb_refl, TrieProofs.str_eqb_refl. auto.
  - destruct N as (P & _). rewrite T, passed_app in P. apply app_eq_nil in P as [_ P]. discriminate P.
Qed.

(** ** Crash points of processStoredSms *)
Lemma not_sms_attempts text busy r wait : Forall not_sms (attempts text wait busy r).
Proof. apply passed_not. apply passed_attempts. Qed.
Lemma not_sms_exchange c t evs x : exchange c t evs x -> Forall not_sms evs.
Proof. intros (wait & busy & codes & r & -> & _). apply not_sms_attempts. Qed.
Lemma not_sms_deletes is evs : deletes is evs -> Forall not_sms evs.
Proof. induction 1; auto. apply Forall_app. split; auto. eapply not_sms_exchange; eauto. Qed.
Lemma app_cases {A} (a b pre : list A) y post : a ++ b = pre ++ y :: post -> (exists l, a = pre ++ y :: l) \/ (exists l, pre = a ++ l /\ b = l ++ y :: post).
Proof.
  revert pre. induction a as [|x a IH]; intros pre E; cbn in E; [right; exists pre; auto|]. destruct pre as [|p pre]; cbn in E.
  - injection E as -> _. left. exists a. auto.
  - injection E as <- E. apply IH in E as [(l & ->)|(l & -> & ->)]; [left; exists l; auto|right; exists l; auto].
Qed.
Lemma not_sms_skip a b pre s post : Forall not_sms a -> a ++ b = pre ++ ESms s :: post -> exists l, pre = a ++ l /\ b = l ++ ESms s :: post.
Proof.
  intros F E. apply app_cases in E as [(l & ->)|H]; auto. apply Forall_app in F as [_ F]. inversion F as [|? ? X]. destruct X.
Qed.
Lemma map_sms_split (es : list (Z * stored_sms)) l s post : map (fun e => ESms (snd e)) es = l ++ ESms s :: post ->
  exists before i after, es = before ++ (i, s) :: after /\ l = map (fun e => ESms (snd e)) before.
Proof.
  revert l. induction es as [|[i s'] es IH]; intros l E; [destruct l; discriminate|]. destruct l as [|x l]; cbn in E.
  - injection E as -> _. exists [], i, es. auto.
  - injection E as <- E. apply IH in E as (b & j & a & -> & ->). exists ((i, s') :: b), j, a. auto.
Qed.
Lemma rounds_handing mode sts evs : rounds mode sts evs -> Forall (fun st => st <> 4) sts -> forall pre s post, evs = pre ++ ESms s :: post -> handing mode pre s.
Proof.
  induction 1 as [|st sts es evs1 evs2 R Rs IH]; intros F pre s post E; [destruct pre; discriminate|].
  inversion F as [|? ? N4 F']; subst. apply app_cases in E as [(l & E)|(l & -> & E)].
  - destruct R as (p & answer & e1 & e2 & Sp & E1 & Tk & C & ->). unfold cleared in C. rewrite (proj2 (Z.eqb_neq _ _) N4) in C. destruct C as (is & Is & Dl).
    apply not_sms_skip in E as (l1 & -> & E); [|eapply not_sms_exchange; eauto]. apply not_sms_skip in E as (l2 & -> & E); [|eapply not_sms_deletes; eauto].
    apply map_sms_split in E as (before & i & after & -> & ->). exists [], st, p, answer, e1, e2, (before ++ (i, s) :: after), before, i, after.
    split; auto. split; auto. split; auto. split; auto. split; auto. exists is. auto.
  - specialize (IH F' _ _ _ E). destruct IH as (earlier & st' & p & answer & e1 & e2 & es' & before & i & after & -> & H).
    exists (evs1 ++ earlier), st', p, answer, e1, e2, es', before, i, after. rewrite <- app_assoc. split; auto.
Qed.
Lemma crash_process unreadOnly m sc pre s post : trace (last_of (processStoredSms unreadOnly (start m sc))) = pre ++ ESms s :: post -> handing (smsTextMode m) pre s.
Proof.
  intro E. unfold processStoredSms in E. set (sts := if unreadOnly then [0] else [1; 0]) in E.
  assert (F0 : Forall (fun st => 0 <= st) sts) by (unfold sts; destruct unreadOnly; repeat constructor; lia).
  assert (F4 : Forall (fun st => st <> 4) sts) by (unfold sts; destruct unreadOnly; repeat constructor; lia).
  pose proof (states_run sts F0 (start m sc)) as H. cbn [start trace dev app] in H.
  assert (Part : (exists dn rest e1 e2, sts = dn ++ rest /\ pre ++ ESms s :: post = e1 ++ e2 /\ rounds (smsTextMode m) dn e1 /\ passed e2 = []) -> handing (smsTextMode m) pre s).
  { intros (dn & rest & e1 & e2 & Es & T & R & P). symmetry in T. apply app_cases in T as [(l & T)|(l & -> & T)].
    - rewrite Es in F4. apply Forall_app in F4 as [F4 _]. eapply rounds_handing; eauto.
    - rewrite T, passed_app in P. apply app_eq_nil in P as [_ P]. discriminate P. }
  destruct (process_states sts (start m sc)) as [[u|e] w|w] eqn:Ep; cbn [last_of] in *; fold sts in H |- *; rewrite ?Ep in E; cbn [last_of] in E.
  - destruct H as (evs & T & R). eapply rounds_handing; eauto. rewrite <- T. exact E.
  - apply Part. rewrite <- E. exact H.
  - apply Part. rewrite <- E. exact H.
Qed.

(** ** Listings *)
Lemma taken_parse mode answer es : taken mode answer es -> parse_list mode answer = Ok (ext ([], []) es).
Proof. intro T. apply parse_list_iff. eauto. Qed.
Lemma taken_same mode answer es1 es2 : taken mode answer es1 -> taken mode answer es2 -> map snd es1 = map snd es2 /\ forall is, indices_of es1 is -> indices_of es2 is.
Proof.
  intros T1 T2. apply taken_parse in T1, T2. rewrite T1 in T2. injection T2 as E1 E2. split; auto.
  intros is [N H]. split; auto. intro i. rewrite H.
  pose proof (ext_indices es1) as [_ H1]. pose proof (ext_indices es2) as [_ H2]. unfold ext in H1, H2. cbn [snd] in H1, H2. rewrite <- H1, <- H2, E2. tauto.
Qed.
Lemma cleared_same status es1 es2 evs : (forall is, indices_of es1 is -> indices_of es2 is) -> cleared status es1 evs -> cleared status es2 evs.
Proof. intros H. unfold cleared. destruct (status =? 4); auto. intros (is & I & D). eauto. Qed.
Lemma listing_exact status memory delete w x w' : 0 <= status -> listStoredSms status memory delete w = Done x w' ->
  exists evs, trace w' = trace w ++ evs /\
  (((exists e, x = Err e) /\ failures evs) \/ (smsTextMode (dev w) = true /\ x = Err ValueError /\ forall s, ~ status_named s status) \/
   exists e0 e1 e2 p answer, evs = e0 ++ e1 ++ e2 /\ selected memory (dev w) e0 /\ status_param (smsTextMode (dev w)) status p /\
     exchange (lit "AT+CMGL=" ++ p) [13] e1 (Ok answer) /\
     forall es, taken (smsTextMode (dev w)) answer es -> x = Ok (map snd es) /\ (if delete then cleared status es e2 else e2 = [])).
Proof.
  intros Hs H. pose proof H as H0. apply (list_run _ _ _ _ _ _ Hs) in H as (evs & T & _ & L). exists evs. split; auto. destruct x as [msgs|e]; cbn in L.
  - right. right. destruct L as (e0 & e1 & e2 & p & answer & es & -> & S0 & Sp & E1 & Tk & -> & C). exists e0, e1, e2, p, answer. split; auto. split; auto. split; auto. split; auto.
    intros es' Tk'. destruct (taken_same _ _ _ _ Tk Tk') as [-> I]. split; auto. destruct delete; auto. eapply cleared_same; eauto.
  - destruct L as [F|[(e0 & e1 & p & answer & -> & S0 & Sp & E1 & N)|(Md & N)]]; [left; eauto| |].
    + right. right. exists e0, e1, [], p, answer. rewrite app_nil_r. split; auto. split; auto. split; auto. split; auto. intros es Tk. destruct (N es Tk).
    + destruct (match e with ValueError => true | _ => false end) eqn:Ee.
      * right. left. split; auto. split; auto. destruct e; try discriminate. auto.
      * left. split; [eauto|]. rewrite list_eq in H0. apply bind_done in H0 as [([] & w1 & H1 & H0)|(e' & H1 & _)].
        -- exfalso. unfold mbind at 1, get in H0. apply select_run in H1 as (e0 & T0 & M0 & _). rewrite M0, Md in H0. unfold query_of in H0.
           destruct (status_text status) as [s|] eqn:St; [apply status_text_iff in St; destruct (N s St)|]. cbn in H0. injection H0 as <- _. discriminate.
        -- apply select_run in H1 as (e0 & T0 & _ & F). rewrite T0 in T. apply app_inv_head in T. subst. auto.
Qed.
Lemma listing_pdu status memory delete w x w' : 0 <= status -> smsTextMode (dev w) = false -> listStoredSms status memory delete w = Done x w' ->
  exists evs, trace w' = trace w ++ evs /\
  (((exists e, x = Err e) /\ failures evs) \/
   exists e0 e1 e2 p answer, evs = e0 ++ e1 ++ e2 /\ selected memory (dev w) e0 /\ decimal status p /\
     exchange (lit "AT+CMGL=" ++ p) [13] e1 (Ok answer) /\
     forall es, well_formed answer es -> x = Ok (map snd es) /\ (if delete then cleared status es e2 else e2 = [])).
Proof.
  intros Hs Md H. apply (listing_exact _ _ _ _ _ _ Hs) in H as (evs & T & H). exists evs. split; auto. rewrite Md in H.
  destruct H as [H|[(X & _)|(e0 & e1 & e2 & p & answer & E & S0 & Sp & E1 & K)]]; [auto|discriminate|].
  right. exists e0, e1, e2, p, answer. split; auto. split; auto. split; auto. split; auto. intros es W. apply K. apply well_formed_taken; auto.
Qed.
Lemma listing_text status memory delete w x w' : 0 <= status -> smsTextMode (dev w) = true -> listStoredSms status memory delete w = Done x w' ->
  exists evs, trace w' = trace w ++ evs /\
  (((exists e, x = Err e) /\ failures evs) \/ (x = Err ValueError /\ forall s, ~ status_named s status) \/
   exists e0 e1 e2 name answer, evs = e0 ++ e1 ++ e2 /\ selected memory (dev w) e0 /\ status_named name status /\
     exchange (lit "AT+CMGL=" ++ 34 :: name ++ [34]) [13] e1 (Ok answer) /\
     forall es, taken_text answer es -> x = Ok (map snd es) /\ (if delete then cleared status es e2 else e2 = [])).
Proof.
  intros Hs Md H. apply (listing_exact _ _ _ _ _ _ Hs) in H as (evs & T & H). exists evs. split; auto. rewrite Md in H.
  destruct H as [H|[(_ & H)|(e0 & e1 & e2 & p & answer & E & S0 & (name & Sn & ->) & E1 & K)]]; [auto|auto|].
  right. right. exists e0, e1, e2, name, answer. auto.
Qed.
(** an entry that cannot be decoded, followed by another one *)
Lemma shifted_taken head1 i1 st1 bad head2 i2 st2 pdu d s rest es : cmgl_header head1 i1 st1 -> undecodable bad -> cmgl_header head2 i2 st2 ->
  decodeSmsPdu pdu = Ok d -> message_of st1 d s -> well_formed rest es -> taken_pdu (head1 :: bad :: head2 :: pdu :: rest) ((i1, s) :: es).
Proof.
  intros H1 B H2 D M W. apply (tp_entry head1 i1 st1 [bad; head2] pdu d s rest es); auto.
  - repeat constructor; auto. eapply header_undecodable; eauto.
  - apply well_formed_taken; auto.
Qed.
Lemma shifted head1 i1 st1 bad head2 i2 st2 pdu d s rest es status memory delete w x w' : 0 <= status -> smsTextMode (dev w) = false ->
  cmgl_header head1 i1 st1 -> undecodable bad -> cmgl_header head2 i2 st2 -> decodeSmsPdu pdu = Ok d -> message_of st1 d s -> well_formed rest es ->
  listStoredSms status memory delete w = Done x w' ->
  exists evs, trace w' = trace w ++ evs /\
  (((exists e, x = Err e) /\ failures evs) \/
   exists e0 e1 e2 p answer, evs = e0 ++ e1 ++ e2 /\ selected memory (dev w) e0 /\ decimal status p /\
     exchange (lit "AT+CMGL=" ++ p) [13] e1 (Ok answer) /\
     (answer = head1 :: bad :: head2 :: pdu :: rest -> x = Ok (s :: map snd es) /\ (if delete then cleared status ((i1, s) :: es) e2 else e2 = []))).
Proof.
  intros Hs Md H1 B H2 D M W H. apply (listing_exact _ _ _ _ _ _ Hs) in H as (evs & T & H). exists evs. split; auto. rewrite Md in H.
  destruct H as [H|[(X & _)|(e0 & e1 & e2 & p & answer & E & S0 & Sp & E1 & K)]]; [auto|discriminate|].
  right. exists e0, e1, e2, p, answer. split; auto. split; auto. split; auto. split; auto. intros ->. apply (K ((i1, s) :: es)). eapply shifted_taken; eauto.
Qed.

(** ** A notification whose handling does not end *)
Lemma received_unfinished line m sc w : handleSmsReceived line (start m sc) = Stuck w -> passed (trace w) = [].
Proof.
  unfold handleSmsReceived. destruct (re_match CMTI_REGEX line) as [g|]; [|discriminate]. intro H.
  assert (Q1 : quiet (readStoredSms (group 2 g) (Some (group 1 g)))).
  { unfold readStoredSms. apply quiet_bind; [apply quiet_select|intros _]. quiet_tac. }
  unfold mbind at 1 in H. destruct (Q1 (start m sc)) as (e1 & T1 & P1).
  destruct (readStoredSms _ _ _) as [[s|e] w1|w1]; cbn [last_of start trace] in T1; [|discriminate|injection H as <-; rewrite T1; exact P1].
  unfold mbind at 1 in H. destruct (quiet_delete (group 2 g) None w1) as (e2 & T2 & P2).
  destruct (deleteStoredSms _ _ _) as [[s'|e] w2|w2]; cbn [last_of] in T2; [discriminate|discriminate|].
  injection H as <-. rewrite T2, T1. unfold passed in *. cbn [Datatypes.app]. rewrite flat_map_app, P1, P2. reflexivity.
Qed.
