(** Callbacks of the application: the handlers of notifications, and calls. *)
From Verif Require Import Base RegexModel RegexProofs UtilModel UtilProofs ModemCore ModemSpec WriteProofs MonadProofs SendSpec SendProofs TrackSpec CoverageSpec CoverageProofs QueryProofs LangProofs SmsModel StoreSpec ListSpec ListProofs ProcessProofs
  CallModel UssdModel NotifyModel PollSpec BookSpec BookProofs CallProofs CallFinal CallbackModel CallbackSpec CallbackProofs.

(** ** The handlers call back last *)
Lemma then_tell {A} (c : M A) (e : A -> event) (f : A -> M unit) w :
  match mbind c (fun x => tell (e x)) w with
  | Done (Ok _) w1 => exists x w0, c w = Done (Ok x) w0 /\ trace w1 = trace w0 ++ [e x] /\ mbind c (fun x => tell (e x) ;;; f x) w = f x w1
  | o => mbind c (fun x => tell (e x) ;;; f x) w = o
  end.
Proof. unfold mbind, tell. destruct (c w) as [[x|y] w1|w1]; auto. exists x, w1. auto. Qed.
Definition read_deleted (g : way) : M stored_sms :=
  do s <- readStoredSms (group 2 g) (Some (group 1 g)); deleteStoredSms (group 2 g) None ;;; ret s.
Lemma received_split line w : handleSmsReceived line w = match re_match CMTI_REGEX line with Some g => mbind (read_deleted g) (fun s => tell (ESms s)) w | None => Done (Ok tt) w end.
Proof.
  unfold handleSmsReceived, read_deleted. destruct (re_match CMTI_REGEX line); auto. rewrite bind_assoc. apply bind_ext; auto. intros s w1. rewrite bind_assoc. auto.
Qed.
Lemma received_with_split a line w : handleSmsReceived_with a line w = match re_match CMTI_REGEX line with Some g => mbind (read_deleted g) (fun s => tell (ESms s) ;;; on_sms a s) w | None => Done (Ok tt) w end.
Proof.
  unfold handleSmsReceived_with, read_deleted. destruct (re_match CMTI_REGEX line); auto. rewrite bind_assoc. apply bind_ext; auto. intros s w1. rewrite bind_assoc. auto.
Qed.
Lemma passed_snoc tr s : passed (tr ++ [ESms s]) <> [].
Proof. unfold passed. rewrite flat_map_app. cbn. intro H. apply app_eq_nil in H as [_ H]. discriminate. Qed.
Theorem received_last a line w :
  (forall w1 pre s, handleSmsReceived line w = Done (Ok tt) w1 -> trace w1 = trace w ++ pre ++ [ESms s] -> handleSmsReceived_with a line w = on_sms a s w1) /\
  (forall evs, trace (last_of (handleSmsReceived line w)) = trace w ++ evs -> passed evs = [] -> handleSmsReceived_with a line w = handleSmsReceived line w).
Proof.
  rewrite received_split, received_with_split. destruct (re_match CMTI_REGEX line) as [g|].
  2:{ split; auto. intros w1 pre s [= <-] T. rewrite <- app_nil_r in T at 1. apply app_inv_head in T. destruct pre; discriminate. }
  pose proof (then_tell (read_deleted g) ESms (on_sms a) w) as H. destruct (mbind (read_deleted g) (fun s => tell (ESms s)) w) as [[[]|e] w1|w1]; [|split; [discriminate|auto]|split; [discriminate|auto]].
  destruct H as (s & w0 & R & T & ->). split.
  - intros w2 pre s' [= <-] T'. rewrite T, app_assoc in T'. apply app_inj_tail in T' as [_ [= <-]]. auto.
  - intros evs T' P. exfalso. cbn [last_of] in T'.
    assert (Q : quiet (read_deleted g)).
    { unfold read_deleted, readStoredSms. apply quiet_bind; [|intro; apply quiet_bind; [apply quiet_delete|intros _; quiet_tac]].
      apply quiet_bind; [apply quiet_select|intros _]. quiet_tac. }
    destruct (Q w) as (e0 & T0 & _). rewrite R in T0. cbn [last_of] in T0. rewrite T, T0, <- app_assoc in T'. apply app_inv_head in T'. subst evs. eapply passed_snoc; eauto.
Qed.
(** *** reports *)
Definition told_or {A} (e : A -> event) (r : option A) : M unit := match r with Some x => tell (e x) | None => ret tt end.
Definition called_or {A} (e : A -> event) (f : A -> M unit) (r : option A) : M unit := match r with Some x => tell (e x) ;;; f x | None => ret tt end.
Lemma then_told {A} (c : M (option A)) (e : A -> event) (f : A -> M unit) w :
  match mbind c (told_or e) w with
  | Done (Ok _) w1 => (exists x w0, c w = Done (Ok (Some x)) w0 /\ trace w1 = trace w0 ++ [e x] /\ mbind c (called_or e f) w = f x w1) \/
                      (c w = Done (Ok None) w1 /\ mbind c (called_or e f) w = Done (Ok tt) w1)
  | o => mbind c (called_or e f) w = o
  end.
Proof. unfold mbind, told_or, called_or. destruct (c w) as [[[x|]|y] w1|w1]; cbn; auto. left. exists x, w1. auto. Qed.
Definition report_noted (g : way) : M (option stored_sms) :=
  do report <- readStoredSms (group 2 g) (Some (group 1 g));
  deleteStoredSms (group 2 g) None ;;;
  match report with
  | Received _ _ _ _ _ => raise AttributeError
  | Report _ reference _ _ _ deliveryStatus =>
      do m <- get;
      match zget (sentTable m) reference with
      | Some obj => modify (set_sentObjs (update (sentObjs m) obj (fun s => mk_sent (s_number s) (s_text s) (s_reference s) (Some deliveryStatus))))
      | None => ret tt
      end ;;;
      do m <- get;
      match reportEvent m with Some _ => modify (set_reportEvent (Some true)) ;;; ret None | None => ret (Some report) end
  end.
Lemma report_split line w : handleSmsStatusReport line w = match re_match CDSI_REGEX line with Some g => mbind (report_noted g) (told_or EReport) w | None => Done (Ok tt) w end.
Proof.
  unfold handleSmsStatusReport, report_noted. destruct (re_match CDSI_REGEX line); auto. rewrite bind_assoc. apply bind_ext; auto. intros s w1. rewrite bind_assoc. apply bind_ext; auto. intros _ w2.
  destruct s; auto. rewrite bind_assoc. apply bind_ext; auto. intros m w3. rewrite bind_assoc. apply bind_ext; auto. intros _ w4. rewrite bind_assoc. apply bind_ext; auto. intros m' w5. destruct (reportEvent m'); auto.
Qed.
Lemma report_with_split a line w : handleSmsStatusReport_with a line w = match re_match CDSI_REGEX line with Some g => mbind (report_noted g) (called_or EReport (on_report a)) w | None => Done (Ok tt) w end.
Proof.
  unfold handleSmsStatusReport_with, report_noted. destruct (re_match CDSI_REGEX line); auto. rewrite bind_assoc. apply bind_ext; auto. intros s w1. rewrite bind_assoc. apply bind_ext; auto. intros _ w2.
  destruct s; auto. rewrite bind_assoc. apply bind_ext; auto. intros m w3. rewrite bind_assoc. apply bind_ext; auto. intros _ w4. rewrite bind_assoc. apply bind_ext; auto. intros m' w5. destruct (reportEvent m'); auto.
Qed.
(** what is only written *)
Definition written {A} (c : M A) : Prop := forall w, exists evs, trace (last_of (c w)) = trace w ++ evs /\ Forall (fun e => match e with EWrite _ _ | ESleep _ => True | _ => False end) evs.
Lemma written_nil {A} (c : M A) : (forall w, trace (last_of (c w)) = trace w) -> written c.
Proof. intros H w. exists []. rewrite H, app_nil_r. auto. Qed.
Lemma written_bind {A B} (c : M A) (k : A -> M B) : written c -> (forall x, written (k x)) -> written (mbind c k).
Proof.
  intros H1 H2 w. destruct (H1 w) as (e1 & T1 & P1). unfold mbind. destruct (c w) as [[a|e] w1|w1]; cbn [last_of] in *; [|eauto|eauto].
  destruct (H2 a w1) as (e2 & T2 & P2). exists (e1 ++ e2). rewrite T2, T1, app_assoc, Forall_app. auto.
Qed.
Lemma written_try {A} (c : M A) h : written c -> (forall e k, h e = Some k -> written k) -> written (try_except c h).
Proof.
  intros H1 H2 w. unfold try_except. destruct (H1 w) as (e1 & T1 & P1). destruct (c w) as [[a|e] w1|w1]; cbn [last_of] in *; eauto.
  destruct (h e) eqn:E; cbn [last_of]; eauto. destruct (H2 _ _ E w1) as (e2 & T2 & P2). exists (e1 ++ e2). rewrite T2, T1, app_assoc, Forall_app. auto.
Qed.
Lemma written_write data term : written (write_with data term true).
Proof.
  intro w. destruct (write_with data term true w) as [x w1|w1] eqn:E; cbn [last_of].
  - apply exchange_of in E as (evs & T & (wait & busy & codes & r & -> & _)). exists (attempts (data ++ term) wait busy r). split; auto. apply attempts_forall; auto.
  - apply stuck_exchange in E as (evs & T & (wait & busy & codes & r & E & _)). exists evs. split; auto.
    assert (F : Forall (fun e => match e with EWrite _ _ | ESleep _ => True | _ => False end) (attempts (data ++ term) wait busy r)) by (apply attempts_forall; auto).
    rewrite <- E in F. apply Forall_app in F. tauto.
Qed.
Ltac written_tac := repeat first [ apply written_write | apply written_bind; [|intros ?] | apply written_nil; intro; reflexivity
  | match goal with |- written (if ?b then _ else _) => destruct b end | match goal with |- written (match ?b with _ => _ end) => destruct b end ].
Lemma written_read i mem : written (readStoredSms i mem).
Proof. unfold readStoredSms, setSmsMemory. written_tac. Qed.
Lemma written_delete i mem : written (deleteStoredSms i mem).
Proof. unfold deleteStoredSms, setSmsMemory. written_tac. Qed.
Lemma reported_silent evs : Forall (fun e => match e with EWrite _ _ | ESleep _ => True | _ => False end) evs -> reported_to evs = [].
Proof. induction 1 as [|e evs H F IH]; auto. destruct e; cbn in *; auto; contradiction. Qed.
Theorem report_last a line w :
  (forall w1 pre s, handleSmsStatusReport line w = Done (Ok tt) w1 -> trace w1 = trace w ++ pre ++ [EReport s] -> handleSmsStatusReport_with a line w = on_report a s w1) /\
  (forall evs, trace (last_of (handleSmsStatusReport line w)) = trace w ++ evs -> reported_to evs = [] -> handleSmsStatusReport_with a line w = handleSmsStatusReport line w).
Proof.
  rewrite report_split, report_with_split. destruct (re_match CDSI_REGEX line) as [g|].
  2:{ split; auto. intros w1 pre s [= <-] T. rewrite <- app_nil_r in T at 1. apply app_inv_head in T. destruct pre; discriminate. }
  assert (Q : written (report_noted g)). { unfold report_noted. apply written_bind; [apply written_read|intro]. apply written_bind; [apply written_delete|intros _]. written_tac. }
  destruct (Q w) as (e0 & T0 & F0).
  pose proof (then_told (report_noted g) EReport (on_report a) w) as H. destruct (mbind (report_noted g) (told_or EReport) w) as [[[]|e] w1|w1]; [|split; [discriminate|auto]|split; [discriminate|auto]].
  destruct H as [(s & w0 & R & T & ->)|[R ->]]; rewrite R in T0; cbn [last_of] in *; (split; [intros w2 pre s' [= <-] T'|intros evs T' P]).
  - rewrite T, app_assoc in T'. apply app_inj_tail in T' as [_ [= <-]]. auto.
  - exfalso. rewrite T, T0, <- app_assoc in T'. apply app_inv_head in T'. subst evs. unfold reported_to in P. rewrite flat_map_app in P. apply app_eq_nil in P as [_ P]. discriminate.
  - exfalso. rewrite T0 in T'. apply app_inv_head in T'. subst e0. apply Forall_app in F0 as [_ F0]. inversion F0. contradiction.
  - auto.
Qed.
(** *** rings *)
Definition ring_noted (lines : list str) : M (option nat) :=
  match lines with
  | [] => raise IndexError
  | ringLine :: lines =>
      do m <- get;
      do callType <-
        (if crc m then
           match after_space ringLine with
           | Some t => ret (Some t)
           | None =>
               try_except (write (lit "AT+CRC=1") ;;; ret None)
                 (fun e => if is_CommandError e then Some (modify (set_crc false) ;;; ret None) else None)
           end
         else ret None);
      do m <- get;
      let callerNumber :=
        match lines with
        | clipLine :: _ =>
            if clip m then match re_match CLIP_REGEX clipLine with Some w => Some (group 1 w) | None => None end else None
        | [] => None
        end in
      do found <- ring_each (activeCalls m) callerNumber None;
      do n <- (match found with
               | Some n => ret n
               | None =>
                   do m <- get;
                   do c <- lift (new_incoming callerNumber (Z.of_nat (length (activeCalls m)) + 1) callType);
                   add_call c
               end);
      ret (Some n)
  end.
Lemma ring_split lines w : handleIncomingCall lines w = mbind (ring_noted lines) (told_or ERing) w.
Proof.
  unfold handleIncomingCall, ring_noted. destruct lines as [|r lines]; auto. repeat (rewrite bind_assoc; apply bind_ext; [reflexivity|intros ? ?]; cbv zeta). auto.
Qed.
Lemma ring_with_split a lines w : handleIncomingCall_with a lines w = mbind (ring_noted lines) (called_or ERing (on_ring a)) w.
Proof.
  unfold handleIncomingCall_with, ring_noted. destruct lines as [|r lines]; auto. repeat (rewrite bind_assoc; apply bind_ext; [reflexivity|intros ? ?]; cbv zeta). auto.
Qed.
Lemma ring_some lines w w1 : ring_noted lines w <> Done (Ok None) w1.
Proof.
  unfold ring_noted. destruct lines as [|r lines]; [discriminate|]. intro H. repeat (apply bind_ok in H as (? & ? & _ & H); cbv zeta in H). discriminate.
Qed.
Theorem ring_last a lines w :
  match handleIncomingCall lines w with
  | Done (Ok _) w1 => exists pre n, trace w1 = pre ++ [ERing n] /\ handleIncomingCall_with a lines w = on_ring a n w1
  | o => handleIncomingCall_with a lines w = o
  end.
Proof.
  rewrite ring_split, ring_with_split. pose proof (then_told (ring_noted lines) ERing (on_ring a) w) as H. destruct (mbind (ring_noted lines) (told_or ERing) w) as [[[]|e] w1|w1]; auto.
  destruct H as [(n & w0 & R & T & ->)|[R _]]; [eauto|]. destruct (ring_some _ _ _ R).
Qed.
