(** A collector that is left alone is the method. *)
From Coq Require Import Permutation.
From Verif Require Import Base PduModel RegexModel ModemCore ModemSpec WriteProofs MonadProofs SendSpec SendProofs TrackSpec CoverageSpec CoverageProofs
  SmsModel StoreSpec StoreLemmas ReadProofs StoreProofs ListSpec ListProofs ProcessProofs StoreFinal HandlerModel HandlerSpec HandlerProofs CollectModel CollectSpec CollectProofs.

Section Lone.
Context (mode : bool) (memory : option str) (hd : bool).
Notation lone' := (lone mode memory hd).
Lemma lone_app a1 s1 p1 k1 t1 a2 s2 p2 k2 t2 a3 s3 p3 : lone' a1 s1 p1 k1 t1 a2 s2 p2 -> lone' a2 s2 p2 k2 t2 a3 s3 p3 -> lone' a1 s1 p1 (k1 ++ k2) (t1 ++ t2) a3 s3 p3.
Proof.
  induction 1 as [|attr sts p said b1 u1 q1 asks told b2 u2 q2 H _ IH|attr sts p text r said b1 u1 q1 asks told b2 u2 q2 H _ IH]; intro K; auto.
  - rewrite <- app_assoc. eapply ln_quiet; eauto.
  - rewrite <- app_assoc. cbn. eapply ln_write; eauto.
Qed.
Lemma lone_quiet attr sts p said attr1 sts1 p1 : collector_step mode memory hd attr sts p None said attr1 sts1 p1 -> lone' attr sts p [] said attr1 sts1 p1.
Proof. intro H. rewrite <- (app_nil_r said). eapply ln_quiet; eauto. constructor. Qed.
Lemma lone_write attr sts here go command w x w' : write command w = Done x w' ->
  (forall r, collector_step mode memory hd attr sts here (Some (command ++ CR, r)) [] attr sts (next_spot here (attempt command r) go)) ->
  exists evs v, trace w' = trace w ++ evs /\ dev w' = set_writeWait v (dev w) /\ passed evs = [] /\
    lone' attr sts here (asked evs) [] attr sts (match x with Ok ls => go ls | Err e => CFail e end).
Proof.
  intros H St. apply write_done in H as (busy & codes & r & _ & B & NB & O & D & T).
  exists (attempts (command ++ CR) (writeWait (dev w)) busy r). eexists. split; auto. split; [exact D|]. split; [apply passed_attempts|].
  rewrite asked_attempts. clear T D. induction B as [|b c busy codes B _ IH].
  - cbn. pose proof (St r) as S1. rewrite (attempt_some _ _ _ NB O) in S1. apply (ln_write _ _ _ _ _ _ _ _ _ _ _ _ _ _ _ _ _ S1). destruct x; constructor.
  - cbn [app map]. pose proof (St b) as S1. rewrite (attempt_none _ _ _ B) in S1. apply (ln_write _ _ _ _ _ _ _ _ _ _ _ _ _ _ _ _ _ S1). exact IH.
Qed.

(** what a part of the method does: from [p], with the same messages handed over *)
Definition part (sts : list Z) (p : spot) (w w' : world) (q : spot) : Prop :=
  smsTextMode (dev w') = smsTextMode (dev w) /\ exists evs, trace w' = trace w ++ evs /\ passed evs = [] /\ lone' (memRead (dev w)) sts p (asked evs) [] (memRead (dev w')) sts q.
Lemma part_refl sts p w : part sts p w w p.
Proof. split; auto. exists []. rewrite app_nil_r. repeat split. constructor. Qed.
Lemma part_trans sts p w w1 q w2 r : part sts p w w1 q -> part sts q w1 w2 r -> part sts p w w2 r.
Proof.
  intros (M1 & e1 & T1 & P1 & L1) (M2 & e2 & T2 & P2 & L2). split; [congruence|]. exists (e1 ++ e2). rewrite T2, T1, app_assoc. split; auto.
  rewrite passed_app, P1, P2, asked_app. split; auto. apply (lone_app _ _ _ _ [] _ _ _ _ [] _ _ _ L1 L2).
Qed.
Lemma part_quiet sts p w q : collector_step mode memory hd (memRead (dev w)) sts p None [] (memRead (dev w)) sts q -> part sts p w w q.
Proof. intro H. split; auto. exists []. rewrite app_nil_r. repeat split. apply lone_quiet. auto. Qed.
Lemma part_write sts here go command w x w' : write command w = Done x w' ->
  (forall r, collector_step mode memory hd (memRead (dev w)) sts here (Some (command ++ CR, r)) [] (memRead (dev w)) sts (next_spot here (attempt command r) go)) ->
  part sts here w w' (match x with Ok ls => go ls | Err e => CFail e end).
Proof. intros H St. destruct (lone_write _ _ _ _ _ _ _ _ H St) as (evs & v & T & D & P & L). rewrite <- (app_nil_r (trace w')) in T. unfold part. rewrite D. split; auto.
  exists evs. rewrite app_nil_r in T. repeat split; auto. Qed.

Lemma part_select sts w y w1 : setSmsMemory memory None w = Done y w1 -> part sts CCompare w w1 (match y with Ok _ => CList | Err e => CFail e end).
Proof.
  intro H. unfold setSmsMemory in H. unfold mbind at 1, get in H. pose proof (cs_compare mode memory hd (memRead (dev w)) sts) as Sc.
  destruct memory as [mem|] eqn:Em; [|injection H as <- <-; apply part_quiet; rewrite Em; auto].
  destruct (opt_str_eqb (Some mem) (memRead (dev w))) eqn:Eq; cbn [negb] in H; [injection H as <- <-; apply part_quiet; rewrite Em; auto|].
  apply (part_trans _ _ _ w CSelect); [apply part_quiet; rewrite Em; auto|].
  apply bind_done in H as [(ls & w2 & H1 & H)|(e & H1 & ->)].
  - apply (part_write sts CSelect (fun _ => CRemember)) in H1; [|intro r; rewrite Em; apply cs_select; auto].
    unfold modify in H. injection H as <- <-. destruct H1 as (M & evs & T & P & L). split; auto. exists evs. cbn [trace dev memRead set_memRead]. split; auto. split; auto.
    rewrite <- (app_nil_r (asked evs)). apply (lone_app _ _ _ _ [] _ _ _ _ [] _ _ _ L). apply lone_quiet. rewrite Em. apply cs_remember.
  - apply (part_write sts CSelect (fun _ => CRemember)) in H1; [|intro r; rewrite Em; apply cs_select; auto]. exact H1.
Qed.
Lemma part_delete sts ms ls is w y w1 : delete_each is w = Done y w1 ->
  part sts (CErase ms ls is) w w1 (match y with Ok _ => CErase ms ls [] | Err e => CFail e end).
Proof.
  revert w. induction is as [|i is IH]; intros w H; cbn [delete_each] in H; [injection H as <- <-; apply part_refl|].
  apply bind_done in H as [([] & w2 & H1 & H)|(e & H1 & ->)]; unfold deleteStoredSms, setSmsMemory in H1; unfold mbind at 1, mbind at 1, get in H1; cbn [ret] in H1.
  - apply bind_done in H1 as [(l & w3 & H1 & H2)|(e & H1 & E)]; [|discriminate E]. injection H2 as ->.
    apply (part_write sts (CErase ms ls (i :: is)) (fun _ => CErase ms ls is)) in H1; [|intro r; apply cs_erase]. eapply part_trans; eauto.
  - apply bind_done in H1 as [(l & w3 & H1 & H2)|(e' & H1 & [= <-])]; [discriminate H2|].
    apply (part_write sts (CErase ms ls (i :: is)) (fun _ => CErase ms ls is)) in H1; [|intro r; apply cs_erase]. exact H1.
Qed.
Lemma part_list st sts w y w1 : smsTextMode (dev w) = mode -> listStoredSms st memory true w = Done y w1 ->
  part (st :: sts) CCompare w w1 (match y with Ok ms => CHand ms | Err e => CFail e end).
Proof.
  intros Mo H. rewrite list_eq in H. apply bind_done in H as [([] & w2 & H1 & H)|(e & H1 & ->)]; [|apply (part_select (st :: sts) _ _ _ H1)].
  apply (part_select (st :: sts)) in H1. eapply part_trans; [exact H1|]. destruct H1 as (M1 & _). unfold mbind at 1, get in H. rewrite M1, Mo in H.
  assert (K : forall l w3, (if st =? 4 then deleteMultipleStoredSms 4 None else delete_each (snd l)) = (if st =? 4 then deleteMultipleStoredSms 4 None else delete_each (snd l)) ->
     mbind (if st =? 4 then deleteMultipleStoredSms 4 None else delete_each (snd l)) (fun _ => ret (fst l)) w3 = Done y w1 ->
     part (st :: sts) (if st =? 4 then CWipe (fst l) else CErase (fst l) (snd l) (snd l)) w3 w1 (match y with Ok ms => CHand ms | Err e => CFail e end)).
  { intros l w3 _ K. destruct (st =? 4).
    - apply bind_done in K as [([] & w4 & K1 & K)|(e & K1 & ->)]; unfold deleteMultipleStoredSms, setSmsMemory in K1; cbn [Z.ltb Z.leb andb Z.compare Pos.compare Pos.compare_cont] in K1;
        unfold mbind at 1, mbind at 1, get in K1; cbn [ret] in K1.
      + injection K as <- <-. apply bind_done in K1 as [(a & w5 & K1 & K2)|(e & K1 & E)]; [|discriminate E]. injection K2 as ->.
        apply (part_write (st :: sts) (CWipe (fst l)) (fun _ => CHand (fst l))) in K1; [exact K1|]. intro r. apply cs_wipe.
      + apply bind_done in K1 as [(a & w5 & K1 & K2)|(e' & K1 & [= <-])]; [discriminate K2|].
        apply (part_write (st :: sts) (CWipe (fst l)) (fun _ => CHand (fst l))) in K1; [exact K1|]. intro r. apply cs_wipe.
    - apply bind_done in K as [([] & w4 & K1 & K)|(e & K1 & ->)].
      + injection K as <- <-. apply (part_delete (st :: sts) (fst l) (snd l)) in K1. eapply part_trans; [exact K1|]. apply part_quiet. apply cs_erased.
      + apply (part_delete (st :: sts) (fst l) (snd l)) in K1. exact K1. }
  change (query_of mode st) with (list_command mode st) in H. destruct (list_command mode st) as [command|] eqn:C.
  - set (go := fun ls => match list_lines mode ls with Ok l => if st =? 4 then CWipe (fst l) else CErase (fst l) (snd l) (snd l) | Err e => CFail e end).
    assert (W : forall x w3, write command w2 = Done x w3 -> part (st :: sts) CList w2 w3 (match x with Ok ls => go ls | Err e => CFail e end)).
    { intros x w3 Hw. apply (part_write (st :: sts) CList go) in Hw; auto. intro r. apply (cs_list mode memory hd _ st sts r command (fun l => l) C (fun l => Permutation_refl l)). }
    apply bind_done in H as [(l & w3 & H2 & H)|(e & H2 & ->)].
    + apply bind_done in H2 as [(ls & w4 & H2 & H3)|(e & H2 & E)]; [|discriminate E]. unfold lift in H3. injection H3 as H3 <-.
      apply W in H2. unfold go in H2. change (list_lines mode ls) with (parse_list mode ls) in H2. rewrite H3 in H2. eapply part_trans; [exact H2|]. apply K; auto.
    + apply bind_done in H2 as [(ls & w4 & H2 & H3)|(e' & H2 & [= <-])]; [|apply W in H2; auto]. unfold lift in H3. injection H3 as H3 <-.
      apply W in H2. unfold go in H2. change (list_lines mode ls) with (parse_list mode ls) in H2. rewrite H3 in H2. exact H2.
  - unfold mbind at 1, raise in H. injection H as <- <-. apply part_quiet. apply cs_unknown. auto.
Qed.
End Lone.

Theorem lone_list m st memory sc x w : listStoredSms st memory true (start m sc) = Done x w -> exists p given,
  lone (smsTextMode m) memory false (memRead m) [st] CCompare (asked (trace w)) given (memRead (dev w)) [st] p /\
  match x with Ok ms => p = CDone /\ given = ms | Err e => p = CFail e /\ given = [] end.
Proof.
  intro H. apply (part_list (smsTextMode m) memory false st []) in H; [|reflexivity]. destruct H as (_ & evs & T & _ & L). cbn [start trace dev app] in *. rewrite T. destruct x as [ms|e].
  - exists CDone, ms. split; auto. rewrite <- (app_nil_r (asked evs)). apply (lone_app _ _ _ _ _ _ _ [] _ _ _ _ ms _ _ _ L). apply lone_quiet. apply cs_return. auto.
  - exists (CFail e), []. auto.
Qed.

Lemma lone_states mode : forall sts w x w', sts <> [] -> smsTextMode (dev w) = mode -> process_states sts w = Done x w' -> exists evs sts' p, trace w' = trace w ++ evs /\
  lone mode None true (memRead (dev w)) sts CCompare (asked evs) (passed evs) (memRead (dev w')) sts' p /\ match x with Ok _ => p = CDone | Err e => p = CFail e end.
Proof.
  assert (Cb : forall ms w x w', callback_each ms w = Done x w' -> x = Ok tt /\ dev w' = dev w /\ trace w' = trace w ++ map ESms ms).
  { induction ms as [|s ms IH]; intros w x w' H; cbn [callback_each] in H; [injection H as <- <-; cbn; rewrite app_nil_r; auto|].
    unfold mbind at 1, tell in H. apply IH in H as (E & D & T). split; auto. split; [exact D|]. rewrite T. cbn [trace map]. rewrite <- app_assoc. auto. }
  assert (Hd : forall ms attr sts, lone mode None true attr sts (CHand ms) [] ms attr sts (CHand [])).
  { induction ms as [|s ms IH]; intros attr sts; [constructor|]. apply (ln_quiet _ _ _ _ _ _ [s] _ _ _ _ ms _ _ _ (cs_hand mode None true attr sts s ms eq_refl)). auto. }
  assert (Pa : forall ms, passed (map ESms ms) = ms /\ asked (map ESms ms) = []).
  { induction ms as [|s ms [IH1 IH2]]; auto. split; [change (s :: passed (map ESms ms) = s :: ms); congruence|exact IH2]. }
  induction sts as [|st sts IH]; intros w x w' Ne Mo H; [congruence|]. cbn [process_states] in H.
  apply bind_done in H as [(ms & w1 & H1 & H)|(e & H1 & ->)].
  2:{ apply (part_list mode None true st sts) in H1; auto. destruct H1 as (_ & evs & T & P & L). exists evs, (st :: sts), (CFail e). rewrite P. auto. }
  apply (part_list mode None true st sts) in H1; auto. destruct H1 as (M1 & evs & T & P & L).
  apply bind_done in H as [([] & w2 & H2 & H)|(e & H2 & ->)]; [|apply Cb in H2 as [E _]; discriminate E]. apply Cb in H2 as (_ & D2 & T2).
  destruct (Pa ms) as [Pa1 Pa2].
  assert (L1 : lone mode None true (memRead (dev w)) (st :: sts) CCompare (asked (evs ++ map ESms ms)) (passed (evs ++ map ESms ms)) (memRead (dev w2)) (st :: sts) (CHand [])).
  { rewrite asked_app, passed_app, P, Pa1, Pa2. apply (lone_app _ _ _ _ _ _ _ [] _ _ _ _ ms _ _ _ L). rewrite D2. apply Hd. }
  destruct sts as [|st2 sts].
  - injection H as <- <-. exists (evs ++ map ESms ms), [], CDone. rewrite T2, T, app_assoc. split; auto. split; auto.
    rewrite <- (app_nil_r (asked _)), <- (app_nil_r (passed _)). apply (lone_app _ _ _ _ _ _ _ _ _ _ _ _ _ _ _ _ L1). apply lone_quiet. apply (cs_next mode None true _ st [] eq_refl).
  - apply IH in H; [|discriminate|rewrite D2, M1; auto]. destruct H as (e2 & sts' & p & T3 & L3 & E). exists ((evs ++ map ESms ms) ++ e2), sts', p.
    rewrite T3, T2, T, <- !app_assoc. split; auto. split; auto. rewrite (app_assoc evs), asked_app, passed_app. apply (lone_app _ _ _ _ _ _ _ _ _ _ _ _ _ _ _ _ L1).
    rewrite <- (app_nil_l (asked e2)), <- (app_nil_l (passed e2)). eapply lone_app; [|exact L3]. apply lone_quiet. apply (cs_next mode None true _ st (st2 :: sts) eq_refl).
Qed.
Theorem lone_process m unread sc x w : processStoredSms unread (start m sc) = Done x w -> exists sts p,
  lone (smsTextMode m) None true (memRead m) (if unread then [0] else [1; 0]) CCompare (asked (trace w)) (passed (trace w)) (memRead (dev w)) sts p /\
  match x with Ok _ => p = CDone | Err e => p = CFail e end.
Proof.
  intro H. unfold processStoredSms in H. apply (lone_states (smsTextMode m)) in H; [|destruct unread; discriminate|reflexivity].
  destruct H as (evs & sts & p & T & L & E). cbn [start trace dev app] in *. rewrite T. eauto.
Qed.

(** ** The handler of +CDSI *)
Section Report.
Context (mode : bool) (mem ds : str).
(** from [p] to [q], nothing handed over *)
Definition stretch (p : place) (w w' : world) (q : place) : Prop :=
  smsTextMode (dev w') = smsTextMode (dev w) /\ exists evs, trace w' = trace w ++ evs /\ alone mode mem ds (memRead (dev w)) p (asked evs) [] (memRead (dev w')) q.
Lemma stretch_refl p w : stretch p w w p.
Proof. split; auto. exists []. rewrite app_nil_r. split; auto. constructor. Qed.
Lemma stretch_trans p w w1 q w2 r : stretch p w w1 q -> stretch q w1 w2 r -> stretch p w w2 r.
Proof.
  intros (M1 & e1 & T1 & L1) (M2 & e2 & T2 & L2). split; [congruence|]. exists (e1 ++ e2). rewrite T2, T1, app_assoc. split; auto.
  rewrite asked_app. apply (alone_app _ _ _ _ _ _ [] _ _ _ [] _ _ L1 L2).
Qed.
Lemma stretch_write here go command w x w' : write command w = Done x w' ->
  (forall r, handler_step mode mem ds (memRead (dev w)) here (Some (command ++ CR, r)) None (memRead (dev w)) (next here (attempt command r) go)) ->
  stretch here w w' (match x with Ok ls => go ls | Err e => Failed e end).
Proof. intros H St. destruct (alone_write _ _ _ _ _ _ _ _ _ _ H St) as (evs & v & T & D & P & L). unfold stretch. rewrite D. split; auto. exists evs. auto. Qed.
Lemma stretch_select w y w1 : setSmsMemory (Some mem) None w = Done y w1 -> stretch Compare w w1 (match y with Ok _ => Fetch | Err e => Failed e end).
Proof.
  intro H. unfold setSmsMemory in H. unfold mbind at 1, get in H. pose proof (st_compare mode mem ds (memRead (dev w))) as Sc.
  assert (Q : stretch Compare w w (if opt_str_eqb (Some mem) (memRead (dev w)) then Fetch else Select)).
  { split; auto. exists []. rewrite app_nil_r. split; auto. apply (al_quiet _ _ _ _ _ _ _ _ _ _ _ _ Sc). constructor. }
  destruct (opt_str_eqb (Some mem) (memRead (dev w))) eqn:Eq; cbn [negb] in H; [injection H as <- <-; auto|]. apply (stretch_trans _ _ _ _ _ _ Q).
  apply bind_done in H as [(ls & w2 & H1 & H)|(e & H1 & ->)].
  - apply (stretch_write Select (fun _ => Remember)) in H1; [|intro r; apply st_select]. unfold modify in H. injection H as <- <-. destruct H1 as (M & evs & T & L).
    split; auto. exists evs. cbn [trace dev memRead set_memRead]. split; auto. rewrite <- (app_nil_r (asked evs)). apply (alone_app _ _ _ _ _ _ [] _ _ _ [] _ _ L).
    apply (al_quiet _ _ _ _ _ _ _ _ _ _ _ _ (st_remember _ _ _ _)). constructor.
  - apply (stretch_write Select (fun _ => Remember)) in H1; [|intro r; apply st_select]. exact H1.
Qed.
Lemma stretch_read w y w1 : smsTextMode (dev w) = mode -> readStoredSms ds (Some mem) w = Done y w1 -> stretch Compare w w1 (match y with Ok s => Erase s | Err e => Failed e end).
Proof.
  intros Mo H. unfold readStoredSms in H. apply bind_done in H as [([] & w2 & H1 & H)|(e & H1 & ->)]; [|apply (stretch_select _ _ _ H1)].
  apply stretch_select in H1. apply (stretch_trans _ _ _ _ _ _ H1).
  set (go := fun ls => match (if mode then parse_cmgr_text ls else parse_cmgr_pdu ls) with Ok s => Erase s | Err e => Failed e end).
  apply bind_done in H as [(ls & w3 & H2 & H)|(e & H2 & ->)]; (apply (stretch_write Fetch go) in H2; [|intro r; apply st_fetch]); auto.
  unfold mbind, get, lift in H. injection H as Hy <-. destruct H1 as (M1 & _), H2 as (M2 & E2). assert (M3 : smsTextMode (dev w3) = mode) by congruence. rewrite M3 in Hy. unfold go in E2. split; [exact M2|].
  rewrite Hy in E2. exact E2.
Qed.
Lemma stretch_delete s w y w1 : deleteStoredSms ds None w = Done y w1 -> stretch (Erase s) w w1 (match y with Ok _ => Deliver s | Err e => Failed e end).
Proof.
  intro H. unfold deleteStoredSms, setSmsMemory in H. unfold mbind at 1, mbind at 1, get in H. cbn [ret] in H.
  apply bind_done in H as [(l & w3 & H1 & H2)|(e & H1 & ->)]; (apply (stretch_write (Erase s) (fun _ => Deliver s)) in H1; [|intro r; apply st_erase]); auto. injection H2 as <- <-. auto.
Qed.
End Report.
Theorem lone_report m mem ds line sc x w : indication (lit "+CDSI:") mem ds line -> handleSmsStatusReport line (start m sc) = Done x w ->
  exists p, alone (smsTextMode m) mem ds (memRead m) Compare (asked (trace w)) [] (memRead (dev w)) p /\
  match x with
  | Ok _ => exists st r n t d v, p = Deliver (Report st r n t d v)
  | Err e => p = Failed e \/ e = AttributeError /\ exists st n t text c, p = Deliver (Received st n t text c)
  end.
Proof.
  intros I H. apply indication_match in I as (t & rest & E). unfold handleSmsStatusReport in H.
  rewrite <- cdsi_is in E. rewrite E in H. unfold group in H. cbn [groups fst snd nth Nat.sub] in H.
  apply bind_done in H as [(s & w1 & H1 & H)|(e & H1 & ->)]; (apply (stretch_read (smsTextMode m)) in H1; [|reflexivity]).
  2:{ destruct H1 as (_ & evs & T & L). exists (Failed e). cbn [start trace dev app] in *. rewrite T. auto. }
  apply bind_done in H as [([] & w2 & H2 & H)|(e & H2 & ->)]; apply (stretch_delete (smsTextMode m) mem ds s) in H2; pose proof (stretch_trans _ _ _ _ _ _ _ _ _ H1 H2) as (_ & evs & T & L);
    cbn [start trace dev app] in *.
  2:{ exists (Failed e). rewrite T. auto. }
  clear H1 H2. exists (Deliver s).
  assert (F : asked (trace w) = asked (trace w2) /\ memRead (dev w) = memRead (dev w2) /\ match x with Ok _ => exists st r n t d v, s = Report st r n t d v | Err e => e = AttributeError /\ exists st n t text c, s = Received st n t text c end).
  { destruct s as [st n tm text c|st r n tm d v]; [injection H as <- <-; eauto 12|].
    unfold mbind at 1, get in H. destruct (zget (sentTable (dev w2)) r); unfold mbind, modify, ret, get in H; cbn in H; destruct (reportEvent (dev w2)); cbn in H; injection H as <- <-; cbn [trace dev memRead];
      rewrite ?asked_app; cbn; rewrite ?app_nil_r; repeat split; eauto 10. }
  destruct F as (F1 & F2 & F3). rewrite F1, F2, T. split; auto. destruct x as [u|e].
  - destruct F3 as (st & r & n & t' & d & v & ->). eauto 10.
  - destruct F3 as (-> & st & n & t' & text & c & ->). right. eauto 10.
Qed.
