(** listStoredSms and processStoredSms. *)
From Verif Require Import Base RegexModel DateModel UtilModel TrieProofs PduModel ModemCore ModemSpec WriteProofs MonadProofs SmsModel SendSpec SendProofs TrackSpec CoverageSpec StoreSpec ReadProofs StoreProofs ListSpec ListProofs.

(** ** Indices *)
Lemma add_del_in d i j : In j (add_del d i) <-> j = i \/ In j d.
Proof.
  unfold add_del. destruct (existsb (Z.eqb i) d) eqn:E.
  - split; auto. intros [->|]; auto. apply existsb_exists in E as (x & I & X). apply Z.eqb_eq in X. subst. auto.
  - rewrite in_app_iff. cbn. intuition.
Qed.
Lemma add_del_nodup d i : NoDup d -> NoDup (add_del d i).
Proof.
  intro N. unfold add_del. destruct (existsb (Z.eqb i) d) eqn:E; auto. apply NoDup_rev in N. replace (d ++ [i]) with (rev (i :: rev d)) by (cbn; rewrite rev_involutive; auto).
  apply NoDup_rev. constructor; auto. rewrite <- in_rev. intro I. assert (existsb (Z.eqb i) d = true); [|congruence]. apply existsb_exists. exists i. rewrite Z.eqb_refl. auto.
Qed.
Lemma fold_indices is : forall d, NoDup d -> NoDup (fold_left add_del is d) /\ forall i, In i (fold_left add_del is d) <-> In i is \/ In i d.
Proof.
  induction is as [|j is IH]; intros d N; cbn [fold_left]; [split; auto; intro i; cbn; tauto|]. destruct (IH (add_del d j)) as [N' H]; [apply add_del_nodup; auto|]. split; auto.
  intro i. rewrite H, add_del_in. cbn. intuition.
Qed.
Lemma ext_indices es : indices_of es (snd (ext ([], []) es)).
Proof. unfold ext. cbn [snd]. destruct (fold_indices (map fst es) []) as [N H]; [constructor|]. split; auto. intro i. rewrite H. cbn. intuition. Qed.
Lemma taken_nonneg mode answer es : taken mode answer es -> Forall (fun e => 0 <= fst e) es.
Proof.
  assert (V : forall ds acc, Forall (fun c => is_digit c = true) ds -> 0 <= acc -> 0 <= fold_left (fun a c => 10 * a + (c - 48)) ds acc).
  { induction ds as [|c ds IH]; intros acc F H; cbn; auto. inversion F as [|? ? H1 H2]; subst. apply IH; auto. apply digit_range in H1. lia. }
  unfold taken. destruct mode.
  - induction 1 as [| |head i st nb t body n tm lines es (is & alpha & nl & _ & [_ D] & -> & _)|]; auto. constructor; auto. apply V; auto. lia.
  - induction 1 as [| |head i st junk pdu d s lines es (sp1 & is & sp2 & ss & more & nl & _ & _ & [_ D] & -> & _)|]; auto. constructor; auto. apply V; auto. lia.
Qed.

(** ** Nothing is handed over while listing *)
Definition quiet {A} (c : M A) : Prop := forall w, exists evs, trace (last_of (c w)) = trace w ++ evs /\ passed evs = [].
Lemma quiet_nil {A} (c : M A) : (forall w, trace (last_of (c w)) = trace w) -> quiet c.
Proof. intros H w. exists []. rewrite H, app_nil_r. auto. Qed.
Lemma quiet_bind {A B} (c : M A) (k : A -> M B) : quiet c -> (forall x, quiet (k x)) -> quiet (mbind c k).
Proof.
  intros H1 H2 w. destruct (H1 w) as (e1 & T1 & P1). unfold mbind. destruct (c w) as [[a|e] w1|w1]; cbn [last_of] in *; [|eauto|eauto].
  destruct (H2 a w1) as (e2 & T2 & P2). exists (e1 ++ e2). rewrite T2, T1, app_assoc, passed_app, P1, P2. auto.
Qed.
Lemma quiet_write data : quiet (write data).
Proof.
  intro w. destruct (write data w) as [x w1|w1] eqn:E; cbn [last_of].
  - apply write_dev in E as (evs & T & P & _). eauto.
  - apply stuck_exchange in E as (evs & T & (wait & busy & codes & r & E & _)). exists evs. split; auto.
    pose proof (passed_attempts (data ++ CR) busy r wait) as P. rewrite <- E, passed_app in P. apply app_eq_nil in P as [P _]. auto.
Qed.
Ltac quiet_tac := repeat first [ apply quiet_write | apply quiet_bind; [|intros ?] | apply quiet_nil; intro; reflexivity
  | match goal with |- quiet (if ?b then _ else _) => destruct b end | match goal with |- quiet (match ?b with _ => _ end) => destruct b end ].
Lemma quiet_select a b : quiet (setSmsMemory a b).
Proof. unfold setSmsMemory. quiet_tac. Qed.
Lemma quiet_delete i mem : quiet (deleteStoredSms i mem).
Proof. unfold deleteStoredSms. apply quiet_bind; [apply quiet_select|intros _]. quiet_tac. Qed.
Lemma quiet_each is : quiet (delete_each is).
Proof. induction is as [|i is IH]; cbn [delete_each]; [quiet_tac|]. apply quiet_bind; auto. apply quiet_delete. Qed.
Lemma quiet_list st mem del : quiet (listStoredSms st mem del).
Proof.
  unfold listStoredSms, deleteMultipleStoredSms. apply quiet_bind; [apply quiet_select|intros _]. apply quiet_bind; [quiet_tac|intro m].
  apply quiet_bind; [quiet_tac|intro l]. apply quiet_bind; [|intros _; quiet_tac]. destruct del; [|quiet_tac].
  destruct (st =? 4); [|apply quiet_each]. destruct ((0 <? 4) && (4 <=? 4)); [|quiet_tac]. apply quiet_bind; [apply quiet_select|intros _; quiet_tac].
Qed.

(** ** listStoredSms *)
Lemma exchange_failures c t evs e : exchange c t evs (Err e) -> failures evs.
Proof. intros (wait & busy & codes & r & -> & B & NB & O). exists (c ++ t), r. split; [apply attempts_has|]. eapply outcome_err_failing; eauto. Qed.
Lemma select_run mem w x w' : setSmsMemory mem None w = Done x w' -> exists evs, trace w' = trace w ++ evs /\ smsTextMode (dev w') = smsTextMode (dev w) /\
  match x with Ok _ => selected mem (dev w) evs | Err _ => failures evs end.
Proof.
  intro H. unfold setSmsMemory in H. unfold mbind at 1, get in H. destruct mem as [m|].
  - destruct (negb (opt_str_eqb (Some m) (memRead (dev w)))) eqn:E.
    + apply bind_done in H as [(a & w1 & H1 & H)|(e & H1 & ->)].
      * pose proof (write_frame _ _ _ _ _ H1) as [v D]. apply exchange_of in H1 as (evs & T & Ex). injection H as <- <-. exists evs. cbn [trace dev]. rewrite D. split; auto. split; auto.
        right. exists m, a. split; auto. split; auto. intro F. rewrite F in E. cbn in E. destruct (str_eqb_spec m m); [discriminate|congruence].
      * pose proof (write_frame _ _ _ _ _ H1) as [v D]. apply exchange_of in H1 as (evs & T & Ex). exists evs. rewrite D. split; auto. split; auto. eapply exchange_failures; eauto.
    + injection H as <- <-. exists []. rewrite app_nil_r. split; auto. split; auto. left. split; auto. right. unfold opt_str_eqb in E. destruct (memRead (dev w)) as [y|]; [|discriminate].
      apply negb_false_iff in E. destruct (str_eqb_spec m y); [congruence|discriminate].
  - injection H as <- <-. exists []. rewrite app_nil_r. split; auto. split; auto. left. auto.
Qed.
(** _setSmsMemory with both of its arguments *)
Lemma opt_str_eqb_spec a b : opt_str_eqb a b = true <-> a = b.
Proof.
  destruct a as [x|], b as [y|]; cbn; try (split; discriminate); [|split; auto]. destruct (str_eqb_spec x y) as [->|N]; split; auto; try discriminate. intros [= ->]. congruence.
Qed.
Lemma read_memory_set (rd : option str) w x w' :
  match rd with
  | Some r => if negb (opt_str_eqb rd (memRead (dev w))) then mbind (write (lit "AT+CPMS=""" ++ r ++ lit """")) (fun _ => modify (set_memRead rd)) else ret tt
  | None => ret tt end w = Done x w' ->
  ((rd = None \/ rd = memRead (dev w)) /\ x = Ok tt /\ w' = w) \/
  exists mem evs r, rd = Some mem /\ rd <> memRead (dev w) /\ trace w' = trace w ++ evs /\ exchange (lit "AT+CPMS=" ++ 34 :: mem ++ [34]) [13] evs r /\
    memWrite (dev w') = memWrite (dev w) /\
    match r with Ok _ => x = Ok tt /\ memRead (dev w') = rd | Err e => x = Err e /\ memRead (dev w') = memRead (dev w) end.
Proof.
  destruct rd as [mem|]; [|intros [= <- <-]; left; auto]. destruct (opt_str_eqb (Some mem) (memRead (dev w))) eqn:E; cbn [negb]; intro H.
  - apply opt_str_eqb_spec in E. injection H as <- <-. left. auto.
  - right. assert (N : Some mem <> memRead (dev w)) by (intro F; apply opt_str_eqb_spec in F; congruence).
    apply bind_done in H as [(a & w1 & H1 & H)|(e & H1 & ->)]; pose proof (write_frame _ _ _ _ _ H1) as [v D]; apply exchange_of in H1 as (evs & T & Ex).
    + injection H as <- <-. exists mem, evs, (Ok a). cbn [trace dev]. rewrite D. repeat (split; [solve [auto]|]). auto.
    + exists mem, evs, (Err e). rewrite D. repeat (split; [solve [auto]|]). auto.
Qed.
Theorem memory_set rd wm w x w' : setSmsMemory rd wm w = Done x w' ->
  (wm <> None /\ wm <> memWrite (dev w) /\ x = Err TypeError /\ w' = w) \/
  ((wm = None \/ wm = memWrite (dev w)) /\
   (((rd = None \/ rd = memRead (dev w)) /\ x = Ok tt /\ w' = w) \/
    exists mem evs r, rd = Some mem /\ rd <> memRead (dev w) /\ trace w' = trace w ++ evs /\ exchange (lit "AT+CPMS=" ++ 34 :: mem ++ [34]) [13] evs r /\
      memWrite (dev w') = memWrite (dev w) /\
      match r with Ok _ => x = Ok tt /\ memRead (dev w') = rd | Err e => x = Err e /\ memRead (dev w') = memRead (dev w) end)).
Proof.
  intro H. unfold setSmsMemory in H. unfold mbind at 1, get in H. destruct wm as [m|].
  - destruct (opt_str_eqb (Some m) (memWrite (dev w))) eqn:E; cbn [negb] in H.
    + apply opt_str_eqb_spec in E. right. split; [auto|]. apply read_memory_set. exact H.
    + injection H as <- <-. left. split; [discriminate|]. split; [|auto]. intro F. apply opt_str_eqb_spec in F. congruence.
  - right. split; [auto|]. apply read_memory_set. exact H.
Qed.
Lemma delete_run i w x w' : 0 <= i -> deleteStoredSms (str_of_Z i) None w = Done x w' -> exists evs, trace w' = trace w ++ evs /\ smsTextMode (dev w') = smsTextMode (dev w) /\
  match x with Ok _ => exists a ds, decimal i ds /\ exchange (lit "AT+CMGD=" ++ ds ++ lit ",0") [13] evs (Ok a) | Err _ => failures evs end.
Proof.
  intros Hi H. unfold deleteStoredSms in H. apply bind_done in H as [([] & w1 & H1 & H)|(e & H1 & _)]; [|discriminate]. injection H1 as <-.
  apply bind_done in H as [(a & w2 & H1 & H)|(e & H1 & ->)].
  - pose proof (write_frame _ _ _ _ _ H1) as [v D]. apply exchange_of in H1 as (evs & T & Ex). injection H as <- <-. exists evs. rewrite D. split; auto. split; auto. exists a, (str_of_Z i).
    split; auto. apply str_of_Z_decimal. auto.
  - pose proof (write_frame _ _ _ _ _ H1) as [v D]. apply exchange_of in H1 as (evs & T & Ex). exists evs. rewrite D. split; auto. split; auto. eapply exchange_failures; eauto.
Qed.
Lemma each_run is : Forall (fun i => 0 <= i) is -> forall w x w', delete_each is w = Done x w' -> exists evs, trace w' = trace w ++ evs /\ smsTextMode (dev w') = smsTextMode (dev w) /\
  match x with Ok _ => deletes is evs | Err _ => failures evs end.
Proof.
  induction 1 as [|i is Hi F IH]; intros w x w' H; cbn [delete_each] in H.
  - injection H as <- <-. exists []. rewrite app_nil_r. split; auto. split; auto. constructor.
  - apply bind_done in H as [([] & w1 & H1 & H)|(e & H1 & ->)].
    + apply (delete_run _ _ _ _ Hi) in H1 as (e1 & T1 & M1 & a & ds & D & Ex). apply IH in H as (e2 & T2 & M2 & H). exists (e1 ++ e2). rewrite T2, T1, app_assoc. split; auto.
      split; [congruence|]. destruct x; [econstructor; eauto|]. apply failures_app. auto.
    + apply (delete_run _ _ _ _ Hi) in H1 as (e1 & T1 & M1 & Ex). eauto.
Qed.
Lemma status_text_iff st s : status_text st = Some s <-> status_named s st.
Proof.
  unfold status_text. split.
  - destruct (find _ TEXT_MODE_STATUS_MAP) as [p|] eqn:E; [|discriminate]. intros [= <-]. apply find_some in E as [I E]. apply Z.eqb_eq in E. subst. destruct p. exact I.
  - intro H. cbn in H. repeat (destruct H as [[= <- <-]|H]; [reflexivity|]). contradiction.
Qed.
Definition query_of (mode : bool) (status : Z) : option str :=
  if mode then option_map (fun s => lit "AT+CMGL=""" ++ s ++ lit """") (status_text status) else Some (lit "AT+CMGL=" ++ str_of_Z status).
Lemma list_eq status memory delete w : listStoredSms status memory delete w =
  mbind (setSmsMemory memory None) (fun _ => mbind get (fun m =>
  mbind (match query_of (smsTextMode m) status with None => raise ValueError
         | Some q => do result <- write q; lift (parse_list (smsTextMode m) result) end) (fun l =>
  mbind (if delete then (if status =? 4 then deleteMultipleStoredSms 4 None else delete_each (snd l)) else ret tt) (fun _ => ret (fst l))))) w.
Proof.
  unfold listStoredSms. unfold mbind at 1. symmetry. unfold mbind at 1. destruct (setSmsMemory memory None w) as [[a|e] w1|w1]; auto. unfold mbind at 1, get. symmetry. unfold mbind at 1.
  unfold query_of, parse_list. destruct (smsTextMode (dev w1)); auto. destruct (status_text status); auto.
Qed.
Definition list_done (mode : bool) (status : Z) (memory : option str) (delete : bool) (m : modem) (x : res (list stored_sms)) (evs : list event) : Prop :=
  match x with
  | Ok msgs => exists e0 e1 e2 p answer es, evs = e0 ++ e1 ++ e2 /\ selected memory m e0 /\ status_param mode status p /\
      exchange (lit "AT+CMGL=" ++ p) [13] e1 (Ok answer) /\ taken mode answer es /\ msgs = map snd es /\ (if delete then cleared status es e2 else e2 = [])
  | Err _ => failures evs \/
      (exists e0 e1 p answer, evs = e0 ++ e1 /\ selected memory m e0 /\ status_param mode status p /\ exchange (lit "AT+CMGL=" ++ p) [13] e1 (Ok answer) /\ forall es, ~ taken mode answer es) \/
      (mode = true /\ forall s, ~ status_named s status)
  end.
Lemma list_run status memory delete w x w' : 0 <= status -> listStoredSms status memory delete w = Done x w' ->
  exists evs, trace w' = trace w ++ evs /\ smsTextMode (dev w') = smsTextMode (dev w) /\ list_done (smsTextMode (dev w)) status memory delete (dev w) x evs.
Proof.
  intros Hs H. rewrite list_eq in H. apply bind_done in H as [([] & w1 & H1 & H)|(e & H1 & ->)].
  2:{ apply select_run in H1 as (e0 & T0 & M0 & S0). exists e0. split; auto. split; auto. left. auto. }
  apply select_run in H1 as (e0 & T0 & M0 & S0). unfold mbind at 1, get in H. rewrite M0 in H.
  assert (Q : match query_of (smsTextMode (dev w)) status with Some q => exists p, status_param (smsTextMode (dev w)) status p /\ q = lit "AT+CMGL=" ++ p
    | None => smsTextMode (dev w) = true /\ forall s, ~ status_named s status end).
  { unfold query_of, status_param. destruct (smsTextMode (dev w)).
    - destruct (status_text status) as [s|] eqn:St; cbn [option_map]; [|split; auto; intros s F; apply status_text_iff in F; congruence].
      apply status_text_iff in St. exists (34 :: s ++ [34]). split; [eauto|auto].
    - exists (str_of_Z status). split; auto. apply str_of_Z_decimal. auto. }
  destruct (query_of (smsTextMode (dev w)) status) as [q|].
  2:{ injection H as <- <-. exists e0. split; auto. split; auto. right. right. auto. }
  destruct Q as (p & Sp & ->). apply bind_done in H as [(l & w2 & H2 & H)|(e & H2 & ->)].
  - apply bind_done in H2 as [(answer & w3 & H2 & H3)|(e & H2 & F)]; [|discriminate]. pose proof (write_frame _ _ _ _ _ H2) as [v D]. apply exchange_of in H2 as (e1 & T1 & E1).
    unfold lift in H3. injection H3 as H3 <-. apply parse_list_iff in H3 as (es & Tk & ->).
    assert (M2 : smsTextMode (dev w3) = smsTextMode (dev w)) by (rewrite D; auto).
    assert (X : forall w4 y, (if delete then (if status =? 4 then deleteMultipleStoredSms 4 None else delete_each (snd (ext ([], []) es))) else ret tt) w3 = Done y w4 ->
      exists e2, trace w4 = trace w3 ++ e2 /\ smsTextMode (dev w4) = smsTextMode (dev w) /\ match y with Ok _ => if delete then cleared status es e2 else e2 = [] | Err _ => failures e2 end).
    { intros w4 y Hy. destruct delete; [|injection Hy as <- <-; exists []; rewrite app_nil_r; auto]. unfold cleared. destruct (status =? 4).
      - unfold deleteMultipleStoredSms in Hy. change ((0 <? 4) && (4 <=? 4)) with true in Hy. cbv iota in Hy.
        apply bind_done in Hy as [([] & w5 & H5 & Hy)|(e & H5 & _)]; [|discriminate]. injection H5 as <-. apply bind_done in Hy as [(a & w6 & H6 & Hy)|(e & H6 & ->)].
        + pose proof (write_frame _ _ _ _ _ H6) as [v6 D6]. apply exchange_of in H6 as (e2 & T2 & E2). injection Hy as <- <-. exists e2. rewrite D6. split; auto. split; auto. eauto.
        + pose proof (write_frame _ _ _ _ _ H6) as [v6 D6]. apply exchange_of in H6 as (e2 & T2 & E2). exists e2. rewrite D6. split; auto. split; auto. eapply exchange_failures; eauto.
      - pose proof (ext_indices es) as [Nd In_]. apply each_run in Hy as (e2 & T2 & M & R).
        + exists e2. split; auto. split; [congruence|]. destruct y; auto. exists (snd (ext ([], []) es)). split; auto. split; auto.
        + apply Forall_forall. intros i I. apply In_ in I. apply taken_nonneg in Tk. rewrite Forall_forall in Tk. apply in_map_iff in I as (e & <- & I). auto. }
    apply bind_done in H as [([] & w4 & H4 & H)|(e & H4 & ->)].
    + injection H as <- <-. apply X in H4 as (e2 & T2 & M & C). exists (e0 ++ e1 ++ e2). rewrite T2, T1, T0, <- !app_assoc. split; auto. split; auto.
      exists e0, e1, e2, p, answer, es. auto 8.
    + apply X in H4 as (e2 & T2 & M & C). exists (e0 ++ e1 ++ e2). rewrite T2, T1, T0, <- !app_assoc. split; auto. split; auto. left. rewrite !failures_app. auto.
  - apply bind_done in H2 as [(answer & w3 & H2 & H3)|(e2 & H2 & [= <-])].
    + pose proof (write_frame _ _ _ _ _ H2) as [v D]. apply exchange_of in H2 as (e1 & T1 & E1). unfold lift in H3. injection H3 as H3 <-. exists (e0 ++ e1).
      rewrite T1, T0, app_assoc. split; auto. split; [rewrite D; auto|]. right. left. exists e0, e1, p, answer. split; auto. split; auto. split; auto. split; auto.
      intros es Tk. assert (parse_list (smsTextMode (dev w)) answer = Ok (ext ([], []) es)) by (apply parse_list_iff; eauto). congruence.
    + pose proof (write_frame _ _ _ _ _ H2) as [v D]. apply exchange_of in H2 as (e1 & T1 & E1). exists (e0 ++ e1). rewrite T1, T0, app_assoc. split; auto. split; [rewrite D; auto|].
      left. apply failures_app. right. eapply exchange_failures; eauto.
Qed.

(** ** processStoredSms *)
Lemma callback_run l : forall w, callback_each l w = Done (Ok tt) (mk_world (dev w) (script w) (trace w ++ map ESms l)).
Proof.
  induction l as [|s l IH]; intro w; cbn [callback_each map]; [rewrite app_nil_r; destruct w; auto|]. unfold mbind, tell. rewrite IH. cbn. rewrite <- app_assoc. auto.
Qed.
Lemma states_run sts : Forall (fun s => 0 <= s) sts -> forall w,
  match process_states sts w with
  | Done (Ok _) w' => exists evs, trace w' = trace w ++ evs /\ rounds (smsTextMode (dev w)) sts evs
  | o => exists done rest evs1 evs2, sts = done ++ rest /\ trace (last_of o) = trace w ++ evs1 ++ evs2 /\ rounds (smsTextMode (dev w)) done evs1 /\ passed evs2 = []
  end.
Proof.
  induction 1 as [|st sts Hst F IH]; intro w; cbn [process_states]; [exists []; rewrite app_nil_r; split; auto; constructor|].
  unfold mbind at 1. pose proof (quiet_list st None true w) as (eq & Tq & Pq). destruct (listStoredSms st None true w) as [[msgs|e] w1|w1] eqn:L.
  - unfold mbind at 1. rewrite callback_run. apply (list_run _ _ _ _ _ _ Hst) in L as (evs & T & M & (e0 & e1 & e2 & p & answer & es & -> & S0 & Sp & E1 & Tk & -> & C)).
    assert (e0 = []) as -> by (destruct S0 as [[-> _]|(mem & a & X & _)]; [auto|discriminate]). cbn [app] in T.
    set (w2 := mk_world (dev w1) (script w1) (trace w1 ++ map ESms (map snd es))).
    assert (R : round (smsTextMode (dev w)) st es (e1 ++ e2 ++ map (fun e => ESms (snd e)) es)) by (exists p, answer, e1, e2; auto 8).
    assert (T2 : trace w2 = trace w ++ (e1 ++ e2 ++ map (fun e => ESms (snd e)) es)) by (cbn; rewrite T, map_map, <- !app_assoc; auto).
    specialize (IH w2). change (dev w2) with (dev w1) in IH. rewrite M in IH. destruct (process_states sts w2) as [[u|e] w3|w3].
    + destruct IH as (evs & T3 & Rs). exists ((e1 ++ e2 ++ map (fun e => ESms (snd e)) es) ++ evs). rewrite T3, T2, <- app_assoc. split; auto. econstructor; eauto.
    + destruct IH as (dn & rest & v1 & v2 & -> & T3 & Rs & P). exists (st :: dn), rest, ((e1 ++ e2 ++ map (fun e => ESms (snd e)) es) ++ v1), v2. split; auto.
      split; [rewrite T3, T2, <- !app_assoc; auto|]. split; auto. econstructor; eauto.
    + destruct IH as (dn & rest & v1 & v2 & -> & T3 & Rs & P). exists (st :: dn), rest, ((e1 ++ e2 ++ map (fun e => ESms (snd e)) es) ++ v1), v2. split; auto.
      split; [rewrite T3, T2, <- !app_assoc; auto|]. split; auto. econstructor; eauto.
  - exists [], (st :: sts), [], eq. cbn [app]. split; auto. split; auto. split; auto. constructor.
  - exists [], (st :: sts), [], eq. cbn [app]. split; auto. split; auto. split; auto. constructor.
Qed.
