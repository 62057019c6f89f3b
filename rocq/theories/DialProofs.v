(** Proofs about dialling. *)
From Verif Require Import Base RegexModel RegexProofs UtilModel UtilSpec UtilProofs ModemCore ModemSpec WriteProofs MonadProofs PollProofs SmsModel SendSpec SendProofs LangProofs CoverageSpec CoverageProofs CentreProofs ReadProofs QueryProofs
  ModemFinal TrackSpec TrackProofs CallModel NotifyModel PollModel PollSpec BookSpec BookProofs CallProofs CallFinal DialSpec.

Lemma atd_run number w : match atd number w with
  | Done x w' => exists evs v, trace w' = trace w ++ evs /\ dialled number (waitAtd (dev w)) evs x /\ dev w' = set_writeWait v (dev w)
  | Stuck w' => waitAtd (dev w) = true
  end.
Proof.
  unfold atd, mbind at 1, get. destruct (waitAtd (dev w)) eqn:A.
  - unfold mbind. destruct (write _ w) as [[a|e] w1|w1] eqn:W; auto; destruct (write_frame _ _ _ _ _ W) as [v D]; destruct (exchange_of _ _ _ _ _ W) as (evs & T & X); exists evs, v; split; auto; split; auto.
    + eapply dd_answered; eauto.
    + eapply dd_failed; eauto.
  - exists (EWrite ((lit "ATD" ++ number ++ lit ";") ++ [13]) None :: pause (writeWait (dev w))), (writeWait (dev w)). cbn [write_nowait trace dev]. split; [|split; [constructor|destruct (dev w); reflexivity]].
    unfold paused, pause. destruct (0 <? _); auto. rewrite <- app_assoc. auto.
Qed.
Lemma adds_run c w : exists w', add_call c w = Done (Ok (length (callObjs (dev w)))) w' /\ adds_call c (book_of (dev w)) (length (callObjs (dev w))) (book_of (dev w')) /\
  b_dialling (book_of (dev w')) = b_dialling (book_of (dev w)) /\ b_dialled (book_of (dev w')) = b_dialled (book_of (dev w)) /\ script w' = script w /\ trace w' = trace w /\ crc (dev w') = crc (dev w).
Proof.
  eexists. split; [reflexivity|]. split; [|cbn; auto]. split; auto. split; auto. cbn. apply zset_entered.
Qed.
Theorem dial_does number cb m sc : match dial_start number cb (start m sc) with
  | Done x w => dials (waitAtd m) (waitInit m) number cb (book_of m) (trace w) x (book_of (dev w))
  | Stuck _ => waitAtd m = true
  end.
Proof.
  unfold dial_start. unfold mbind at 1, get. cbn [dev start]. destruct (waitInit m) eqn:I.
  - unfold mbind at 1, modify at 1. cbn [dev start script trace]. unfold mbind at 1, try_except. set (w0 := mk_world (set_dialEvent (Some false) m) sc []).
    pose proof (atd_run number w0) as H. destruct (atd number w0) as [[[]|e] w1|w1].
    + destruct H as (evs & v & T & D & Dv). cbn [ret trace dev]. rewrite T, Dv. apply di_waits; auto.
    + destruct H as (evs & v & T & D & Dv). unfold mbind, modify, raise. cbn [trace dev]. rewrite T, Dv. apply (di_failed (waitAtd m) true number cb (book_of m)). auto.
    + exact H.
  - pose proof (atd_run number (start m sc)) as H. unfold mbind at 1. destruct (atd number (start m sc)) as [[[]|e] w1|w1].
    + destruct H as (evs & v & T & D & Dv). unfold mbind at 1, get. cbn beta iota. unfold mbind. set (c := new_call _ _ _ _). destruct (adds_run c w1) as (w2 & R & A & E1 & E2 & S & T2 & _). rewrite R. cbn [ret].
      assert (B : book_of (dev w1) = book_of m) by (rewrite Dv; auto). rewrite B in *. rewrite T2, T. eapply di_at_once; eauto. unfold c in A. rewrite Dv in A |- *. exact A.
    + destruct H as (evs & v & T & D & Dv). rewrite T, Dv. pose proof (di_failed (waitAtd m) false number cb (book_of m) evs e) as P. cbn in P |- *. apply P. auto.
    + exact H.
Qed.

(** ** While dial() waits *)
Definition told (m : modem) : option bool * option (Z * Z) * call_table := (dialEvent m, dialResponse m, callUpdates m).
Lemma told_ended g i u : keeps told (handleCallEnded g i u).
Proof. unfold handleCallEnded, int_of, set_answered, change_call. keeps_all. Qed.
Lemma told_answered g i : keeps told (handleCallAnswered g i).
Proof. unfold handleCallAnswered, answered_by_id, int_of, set_answered, change_call. keeps_all. Qed.
Lemma told_read i mem : keeps told (readStoredSms i mem).
Proof. unfold readStoredSms, setSmsMemory. keeps_all. Qed.
Lemma told_delete i mem : keeps told (deleteStoredSms i mem).
Proof. unfold deleteStoredSms, setSmsMemory. keeps_all. Qed.
Lemma told_received l : keeps told (handleSmsReceived l).
Proof. unfold handleSmsReceived. keeps_all; first [apply told_read|apply told_delete]. Qed.
Lemma told_report l : keeps told (handleSmsStatusReport l).
Proof. unfold handleSmsStatusReport. keeps_all; first [apply told_read|apply told_delete]. Qed.
Lemma told_ussd l : keeps told (handleUssd l).
Proof. unfold handleUssd. keeps_all. Qed.
Lemma told_ring es number : forall found, keeps told (ring_each es number found).
Proof. induction es as [|[id n] es IH]; intro found; cbn [ring_each]; unfold change_call; keeps_all; apply IH. Qed.
Lemma told_incoming l : keeps told (handleIncomingCall l).
Proof. unfold handleIncomingCall, add_call. keeps_all; apply told_ring. Qed.
Lemma told_hangup n : keeps told (hangup n).
Proof. unfold hangup, set_answered, change_call. keeps_all. Qed.
Lemma told_answer n : keeps told (answer n).
Proof. unfold answer, set_answered, change_call. keeps_all. Qed.
Lemma told_tones n t : keeps told (sendDtmfTone n t).
Proof. unfold sendDtmfTone. keeps_all. Qed.
Lemma table_initiated g i t : keeps callUpdates (handleCallInitiated g i t).
Proof. unfold handleCallInitiated, int_of. keeps_all. Qed.
Lemma table_of {A} (c : M A) : keeps told c -> keeps callUpdates c.
Proof. intros H w. specialize (H w). unfold told in H. congruence. Qed.
Lemma table_notify lines : forall rest, keeps callUpdates (notify_each lines rest).
Proof.
  induction rest as [|line rest IH]; cbn [notify_each]; [apply keeps_ret|].
  destruct (contains _ _); [apply table_of, told_incoming|]. destruct (startswith _ _); [apply table_of, told_received|]. destruct (startswith _ _); [apply table_of, told_ussd|].
  destruct (startswith _ _); [apply table_of, told_report|]. apply keeps_bind; [apply keeps_get|]. intro m. destruct (try_updates _ line) as [k|] eqn:E; auto.
  assert (G : exists g, k = handleCallInitiated (Some g) 0 1 \/ k = handleCallAnswered (Some g) 0 \/ k = handleCallEnded (Some g) None false \/ k = handleCallRejected (Some g) None).
  { destruct (callUpdates m); cbn [call_updates try_updates] in E; repeat match type of E with (match ?x with _ => _ end) = _ => destruct x end; try discriminate E; injection E as <-;
    eexists; first [left; reflexivity|right; left; reflexivity|right; right; left; reflexivity|right; right; right; reflexivity]. }
  destruct G as (g & [->|[->|[->| ->]]]); [apply table_initiated|apply table_of, told_answered|apply table_of, told_ended|apply table_of, told_ended].
Qed.
Lemma table_perform o : no_dialling o -> keeps callUpdates (perform o).
Proof.
  destruct o as [number cb|number cb|n|n|n t|lines|r]; intros H; try contradiction H; cbn [perform].
  - apply table_of, told_answer.
  - apply table_of, told_hangup.
  - apply table_of, told_tones.
  - apply table_notify.
  - destruct r; cbn [handles_report]; [apply table_initiated|apply table_of, told_answered|apply table_of, told_ended|apply table_of, told_ended].
Qed.
Definition waited (b : book) : option bool * option (Z * Z) := (b_dialling b, b_dialled b).
Lemma ends_waited id b b' : ends_call id b b' -> waited b' = waited b.
Proof. intro H. inversion H; subst; auto. Qed.
Lemma report_waited b r x b' : takes_report b r x b' -> (forall id ty, r <> Initiated id ty) -> waited b' = waited b.
Proof. intros H N. inversion H; subst; auto; try (eapply ends_waited; eauto; fail). destruct (N id ty); auto. Qed.
Lemma news_waited b n x b' : takes_news b n x b' -> (forall id ty, n <> News (Initiated id ty)) -> waited b' = waited b.
Proof.
  intros H N. inversion H; subst; auto.
  - eapply report_waited; eauto. intros id ty ->. eapply N; eauto.
  - eapply report_waited; eauto. discriminate.
  - eapply report_waited; eauto. discriminate.
Qed.
Lemma waited_of {A} (c : M A) w : keeps told c -> waited (book_of (dev (last_of (c w)))) = waited (book_of (dev w)).
Proof. intros H. specialize (H w). unfold told in H. unfold waited. cbn. congruence. Qed.
Lemma silent_notify t lines w : callUpdates (dev w) = t -> sound_book (book_of (dev w)) -> silent t (Notification lines) -> forall rest before, lines = before ++ rest -> Forall (unrelated t) before ->
  waited (book_of (dev (last_of (notify_each lines rest w)))) = waited (book_of (dev w)).
Proof.
  intros Ht Sd Si. induction rest as [|line rest IH]; intros before E F; cbn [notify_each]; auto.
  destruct (contains line (lit "RING")) eqn:C1; [apply waited_of, told_incoming|]. destruct (startswith line (lit "+CMTI")) eqn:C2; [apply waited_of, told_received|].
  destruct (startswith line (lit "+CUSD")) eqn:C3; [apply waited_of, told_ussd|]. destruct (startswith line (lit "+CDSI")) eqn:C4; [apply waited_of, told_report|].
  unfold mbind, get. pose proof (news_spec (callUpdates (dev w)) line) as S. destruct (try_updates _ line) as [k|].
  - destruct S as (n & N & A). destruct (A w Sd) as (x & w' & evs & R & T & _). rewrite R. cbn [last_of]. eapply news_waited; eauto. intros id ty ->. apply (Si id ty). rewrite E. constructor; auto. rewrite <- Ht. auto.
  - apply (IH (before ++ [line])); [rewrite <- app_assoc; auto|]. apply Forall_app. split; auto. constructor; auto. repeat split.
    + intro X. apply contains_iff in X. congruence.
    + intros ->. assert (X : startswith (lit "+CMTI" ++ s) (lit "+CMTI") = true) by (apply startswith_app; eauto). congruence.
    + intros ->. assert (X : startswith (lit "+CUSD" ++ s) (lit "+CUSD") = true) by (apply startswith_app; eauto). congruence.
    + intros ->. assert (X : startswith (lit "+CDSI" ++ s) (lit "+CDSI") = true) by (apply startswith_app; eauto). congruence.
    + rewrite <- Ht. exact S.
Qed.
Lemma silent_waited o m sc : sound_book (book_of m) -> no_dialling o -> silent (callUpdates m) o -> waited (book_of (state_after (perform o (start m sc)))) = waited (book_of m).
Proof.
  intros Sd N Si. rewrite after_last. destruct o as [number cb|number cb|n|n|n t|lines|r]; try contradiction N; cbn [perform].
  - exact (waited_of _ (start m sc) (told_answer n)).
  - exact (waited_of _ (start m sc) (told_hangup n)).
  - exact (waited_of _ (start m sc) (told_tones n t)).
  - apply (silent_notify (callUpdates m) lines (start m sc)) with (before := []); auto.
  - destruct (report_run r (start m sc)) as (x & w' & evs & R & T & _). rewrite R. eapply report_waited; eauto. intros id ty ->. apply (Si id ty). constructor.
Qed.
Lemma announced_waited o m sc id ty : sound_book (book_of m) -> dialEvent m <> None -> announces (callUpdates m) o id ty -> waited (book_of (state_after (perform o (start m sc)))) = (Some true, Some (id, ty)).
Proof.
  intros Sd D A. rewrite after_last. inversion A as [before line after i t F N|]; subst; cbn [perform].
  - destruct (news_noted before line after _ m sc Sd F N) as (x & w & R & T & _). rewrite R. cbn [last_of]. inversion T as [r x' b' T' E| | |w' ? [E|E]]; try discriminate E; subst. inversion T' as [? ? E|? ? E| | | | | |]; [destruct (D E)|].
    unfold waited. cbn. congruence.
  - destruct (report_run (Initiated id ty) (start m sc)) as (x & w' & evs & R & T & _). cbn [perform handles_report] in *. rewrite R. inversion T as [? ? E|? ? E| | | | | |]; [destruct (D E)|].
    unfold waited. cbn. congruence.
Qed.
Lemma first_split {A} (P : A -> Prop) a x b a' x' b' : Forall P a -> ~ P x -> Forall P a' -> ~ P x' -> a ++ x :: b = a' ++ x' :: b' -> a = a' /\ x = x' /\ b = b'.
Proof.
  intros F N F' N'. revert a' F'. induction F as [|y a Y F IH]; intros [|y' a'] F' E; cbn in E.
  - injection E. auto.
  - injection E as -> E. inversion F'; contradiction.
  - injection E as -> E. contradiction.
  - injection E as -> E. inversion F'; subst. destruct (IH a') as (-> & -> & ->); auto.
Qed.
Lemma news_related t line n : call_news t line n -> ~ unrelated t line.
Proof. intros N (_ & _ & H). exact (H n N). Qed.
Lemma line_dec t line : unrelated t line \/ (exists n, call_news t line n) \/ (~ unrelated t line /\ forall n, ~ call_news t line n).
Proof.
  destruct (contains line (lit "RING")) eqn:C1.
  { apply contains_iff in C1. right. right. split; [intros (H & _); auto|]. intros n N. apply news_no_ring in N. auto. }
  pose proof (news_spec t line) as S. destruct (try_updates _ line) as [k|]; [destruct S as (n & N & _); eauto|].
  destruct (startswith line (lit "+CMTI")) eqn:C2; [right; right; split; auto; intros (_ & H & _); apply startswith_app in C2 as [r C2]; destruct (H r); tauto|].
  destruct (startswith line (lit "+CUSD")) eqn:C3; [right; right; split; auto; intros (_ & H & _); apply startswith_app in C3 as [r C3]; destruct (H r); tauto|].
  destruct (startswith line (lit "+CDSI")) eqn:C4; [right; right; split; auto; intros (_ & H & _); apply startswith_app in C4 as [r C4]; destruct (H r); tauto|].
  left. split; [intro X; apply contains_iff in X; congruence|]. split; auto. intro s. repeat split; intros ->.
  - assert (X : startswith (lit "+CMTI" ++ s) (lit "+CMTI") = true) by (apply startswith_app; eauto). congruence.
  - assert (X : startswith (lit "+CUSD" ++ s) (lit "+CUSD") = true) by (apply startswith_app; eauto). congruence.
  - assert (X : startswith (lit "+CDSI" ++ s) (lit "+CDSI") = true) by (apply startswith_app; eauto). congruence.
Qed.
Lemma announces_fun t o id ty id' ty' : announces t o id ty -> announces t o id' ty' -> id = id' /\ ty = ty'.
Proof.
  intros A B. inversion A as [before line after i1 t1 F N E1 E2 E3|]; subst.
  - inversion B as [before' line' after' i2 t2 F' N' E1 E2 E3|]; subst.
    apply (first_split (unrelated t)) in E1 as (_ & -> & _); auto; [|eapply news_related; eauto|eapply news_related; eauto]. pose proof (news_fun _ _ _ _ N N') as H. injection H. auto.
  - inversion B; subst. auto.
Qed.
Lemma announced_dec t o : (exists id ty, announces t o id ty) \/ silent t o.
Proof.
  destruct o as [number cb|number cb|n|n|n tn|lines|r]; try (right; intros id ty H; inversion H; fail).
  - assert (G : forall rest before, Forall (unrelated t) before -> (exists id ty, announces t (Notification (before ++ rest)) id ty) \/ silent t (Notification (before ++ rest))).
    { induction rest as [|line rest IH]; intros before F.
      - right. intros id ty H. inversion H as [b' l' a' i1 t1 F' N E1 E2 E3|]; subst. rewrite app_nil_r in E1. subst before. apply Forall_app in F as [_ F]. inversion F; subst. eapply news_related; eauto.
      - destruct (line_dec t line) as [U|[[n N]|[U N]]].
        + specialize (IH (before ++ [line])). rewrite <- app_assoc in IH. apply IH. apply Forall_app. auto.
        + destruct n as [[id ty|id|id|id]| |]; [left; exists id, ty; constructor; auto|..];
          right; intros id' ty H; inversion H as [b' l' a' i1 t1 F' N' E1 E2 E3|]; subst;
          (apply (first_split (unrelated t)) in E1 as (_ & -> & _); auto; [|eapply news_related; eauto|eapply news_related; eauto]); pose proof (news_fun _ _ _ _ N N') as X; discriminate X.
        + right. intros id' ty H. inversion H as [b' l' a' i1 t1 F' N' E1 E2 E3|]; subst.
          apply (first_split (unrelated t)) in E1 as (_ & -> & _); auto; [|eapply news_related; eauto]. exact (N _ N'). }
    apply (G lines []). constructor.
  - destruct r as [id ty|id|id|id]; [left; exists id, ty; constructor|..]; right; intros i ty H; inversion H.
Qed.
Lemma silent_no t os : last_announced t os None -> Forall (silent t) os.
Proof. intro H. inversion H; subst; auto. Qed.
Theorem last_determined t os : exists o, last_announced t os o /\ forall o', last_announced t os o' -> o' = o.
Proof.
  assert (E : exists o, last_announced t os o).
  { induction os as [|x os (o & IH)] using rev_ind; [exists None; constructor; auto|].
    destruct (announced_dec t x) as [(id & ty & A)|Si].
    - exists (Some (id, ty)). apply (la_some t os x []); auto.
    - exists o. inversion IH as [? F|os1 y os2 id ty A F]; subst.
      + constructor. apply Forall_app. auto.
      + rewrite <- app_assoc. cbn. constructor; auto. apply Forall_app. auto. }
  destruct E as (o & H). exists o. split; auto. intros o' H'.
  inversion H as [? F|os1 y os2 id ty A F]; inversion H' as [? F'|os1' y' os2' id' ty' A' F']; subst; auto.
  - exfalso. apply Forall_app in F as [_ F]. inversion F as [|? ? X]; subst. exact (X _ _ A').
  - exfalso. apply Forall_app in F' as [_ F']. inversion F' as [|? ? X]; subst. exact (X _ _ A).
  - match goal with E : _ ++ _ = _ ++ _ |- _ => apply (f_equal (@rev _)) in E; rewrite !rev_app_distr in E; cbn in E; rewrite <- !app_assoc in E; cbn in E; apply (first_split (silent t)) in E as (_ & E & _) end; auto using Forall_rev.
    + subst. destruct (announces_fun _ _ _ _ _ _ A A'). subst. auto.
    + intro X. exact (X _ _ A').
    + intro X. exact (X _ _ A).
Qed.
Lemma meanwhile_book m os m' : meanwhile m os m' -> sound_book (book_of m) -> dialEvent m = Some false -> sound_book (book_of m') /\ callUpdates m' = callUpdates m /\
  dialEvent m' <> None /\ forall o, last_announced (callUpdates m) os o -> match o with Some x => waited (book_of m') = (Some true, Some x) | None => b_dialling (book_of m') = Some false end.
Proof.
  induction 1 as [m|m os m1 o sc H IH N A|m os m1 m2 H IH E1 E2]; intros Sd De.
  - split; auto. split; auto. split; [congruence|]. intros o H. inversion H as [|os1 y os2 id ty A F E]; subst; auto. destruct os1; discriminate E.
  - destruct (IH Sd De) as (S1 & C & D & L). split; [eapply change_sound; [eauto|]; apply perform_change; auto|]. split; [rewrite after_last; rewrite (table_perform o N (start m1 sc)); auto|].
    destruct (announced_dec (callUpdates m) o) as [(id & ty & An)|Si].
    + assert (W : waited (book_of (state_after (perform o (start m1 sc)))) = (Some true, Some (id, ty))) by (apply announced_waited; auto; rewrite C; auto).
      split; [unfold waited in W; cbn in W; congruence|]. intros x La.
      assert (x = Some (id, ty)) as ->; [|auto].
      destruct (last_determined (callUpdates m) (os ++ [o])) as (y & _ & U). rewrite (U _ La). symmetry. apply U. apply (la_some _ os o []); auto.
    + assert (W : waited (book_of (state_after (perform o (start m1 sc)))) = waited (book_of m1)) by (apply silent_waited; auto; rewrite C; auto).
      split; [unfold waited in W; cbn in W; congruence|]. intros x La.
      destruct (last_determined (callUpdates m) os) as (y & Ly & _).
      assert (x = y) as ->.
      { destruct (last_determined (callUpdates m) (os ++ [o])) as (z & _ & U). rewrite (U _ La). symmetry. apply U. inversion Ly as [? F|os1 k os2 id ty Ak F]; subst.
        - constructor. apply Forall_app. auto.
        - rewrite <- app_assoc. cbn. constructor; auto. apply Forall_app. auto. }
      specialize (L _ Ly). destruct y; [congruence|]. unfold waited in W. injection W as W1 W2. cbn in *. congruence.
  - destruct (IH Sd De) as (S1 & C & D & L). rewrite E1. split; auto. split; [congruence|]. split; auto. injection E1 as _ _ E3 _. congruence.
Qed.
Theorem dial_finishes number cb m os m' sc o : sound_book (book_of m) -> dialEvent m = Some false -> meanwhile m os m' -> last_announced (callUpdates m) os o ->
  exists x w, dial_finish number cb (start m' sc) = Done x w /\ dial_ends number cb (book_of m') o x (book_of (dev w)) /\ script w = sc /\ trace w = [].
Proof.
  intros Sd De Me La. destruct (meanwhile_book _ _ _ Me Sd De) as (_ & _ & _ & L). specialize (L _ La). unfold dial_finish. unfold mbind at 1, get. cbn [dev start].
  destruct o as [[id ty]|].
  - unfold waited in L. cbn in L. injection L as L1 L2. rewrite L1, L2. unfold mbind, modify. cbn [dev start script trace].
    destruct (adds_run (new_call id ty number cb) (mk_world (set_dialEvent None m') sc [])) as (w2 & R & A & E1 & E2 & S & T & _). exists (Ok (length (callObjs m'))), w2. split; [exact R|]. split; [|split; [exact S|exact T]].
    apply de_told; auto. rewrite E2. exact L2.
  - cbn in L. rewrite L. do 2 eexists. split; [reflexivity|]. split; [|split; reflexivity]. apply de_timeout.
Qed.
