(** Callbacks of the application. *)
From Verif Require Import Base RegexModel UtilModel ModemCore ModemSpec WriteProofs MonadProofs SendSpec TrackSpec CoverageSpec SmsModel StoreSpec ListSpec ListProofs ProcessProofs StoreProofs StoreFinal
  CallModel UssdModel NotifyModel PollSpec BookSpec BookProofs CallProofs CallbackModel CallbackSpec.

(** ** Callbacks that do nothing *)
Lemma bind_ext {A B} (c c' : M A) (k k' : A -> M B) w : c w = c' w -> (forall x w, k x w = k' x w) -> mbind c k w = mbind c' k' w.
Proof. intros H1 H2. unfold mbind. rewrite H1. destruct (c' w) as [[x|e] w1|w1]; auto. Qed.
Lemma idle_each l : forall w, callback_each_with idle l w = callback_each l w.
Proof. induction l as [|s l IH]; intro w; cbn [callback_each_with callback_each]; auto. Qed.
Lemma idle_states sts : forall w, process_states_with idle sts w = process_states sts w.
Proof.
  induction sts as [|st sts IH]; intro w; cbn [process_states_with process_states]; auto.
Qed.
Theorem idle_process b w : processStoredSms_with idle b w = processStoredSms b w.
Proof. apply idle_states. Qed.
Lemma idle_received l w : handleSmsReceived_with idle l w = handleSmsReceived l w.
Proof.
  unfold handleSmsReceived_with, handleSmsReceived. destruct (re_match CMTI_REGEX l) as [g|]; auto.
Qed.
Lemma idle_report l w : handleSmsStatusReport_with idle l w = handleSmsStatusReport l w.
Proof.
  unfold handleSmsStatusReport_with, handleSmsStatusReport. destruct (re_match CDSI_REGEX l) as [g|]; auto.
Qed.
Lemma idle_answered n b w : set_answered_with idle n b w = set_answered n b w.
Proof. unfold set_answered_with, set_answered, mbind, change_call, modify, get, tell. cbn. destruct (c_callback _); auto. Qed.
Theorem idle_hangup n w : hangup_with idle n w = hangup n w.
Proof. reflexivity. Qed.
Theorem idle_answer n w : answer_with idle n w = answer n w.
Proof. reflexivity. Qed.
Lemma idle_incoming lines w : handleIncomingCall_with idle lines w = handleIncomingCall lines w.
Proof. destruct lines; reflexivity. Qed.
Lemma idle_by_id id w : answered_by_id_with idle id w = answered_by_id id w.
Proof. reflexivity. Qed.
Lemma idle_call_answered g id w : handleCallAnswered_with idle g id w = handleCallAnswered g id w.
Proof. reflexivity. Qed.
Lemma idle_call_ended g id f w : handleCallEnded_with idle g id f w = handleCallEnded g id f w.
Proof.
  unfold handleCallEnded_with, handleCallEnded. apply bind_ext; [reflexivity|]. intros [i|] w1; [|reflexivity]. destruct (i =? 0); [reflexivity|]. unfold mbind at 1, get at 1. cbn beta iota.
  symmetry. unfold mbind at 1, get at 1. cbn beta iota. symmetry.
  destruct (zget (activeCalls (dev w1)) i) as [n|] eqn:Z; auto. destruct (set_answered_run n false w1) as (tr & R & _). rewrite (bind_run _ _ _ _ _ R), (bind_run _ _ _ _ _ (eq_trans (idle_answered _ _ _) R)).
  unfold mbind at 1, get. cbn beta iota. cbn [dev set_callObjs activeCalls]. rewrite Z. auto.
Qed.
Lemma idle_updates t line : match try_updates (call_updates_with idle t) line, try_updates (call_updates t) line with
  | Some h, Some h' => forall w, h w = h' w | None, None => True | _, _ => False end.
Proof.
  destruct t; cbn [call_updates_with call_updates try_updates]; auto;
  repeat match goal with |- context [re_match ?r line] => destruct (re_match r line) end; auto; intros; first [apply idle_call_answered|apply idle_call_ended].
Qed.
Lemma idle_notify lines : forall rest w, notify_each_with idle lines rest w = notify_each lines rest w.
Proof.
  induction rest as [|line rest IH]; intro w; cbn [notify_each_with notify_each]; auto. destruct (contains _ _); [apply idle_incoming|]. destruct (startswith _ _); [apply idle_received|].
  destruct (startswith _ _); auto. destruct (startswith _ _); [apply idle_report|]. apply bind_ext; auto. intros m w1. pose proof (idle_updates (callUpdates m) line) as H.
  destruct (try_updates (call_updates_with idle _) line), (try_updates (call_updates _) line); auto; contradiction.
Qed.
Theorem idle_notification lines w : handleNotification_with idle lines w = handleNotification lines w.
Proof. apply idle_notify. Qed.
Theorem idle_reports r w : handles_report_with idle r w = handles_report r w.
Proof. destruct r; cbn [handles_report_with handles_report]; auto; first [apply idle_call_answered|apply idle_call_ended]. Qed.

(** ** Messages *)
Lemma abrupt_err e w : abrupt (Done (Err e) w). Proof. intros w1 F. discriminate. Qed.
Lemma abrupt_stuck w : abrupt (Stuck w). Proof. intros w1 F. discriminate. Qed.
Lemma wait_only m m' : set_writeWait 0 m' = set_writeWait 0 m -> same_but_wait m m'.
Proof. intro H. exists (writeWait m'). destruct m, m'. cbn in *. injection H; intros; subst. auto. Qed.
Lemma each_passes f a l : (forall s, f s = on_sms a s) -> forall w, exists lost, passes f l w lost (callback_each_with a l w) /\ (forall w1, callback_each_with a l w = Done (Ok tt) w1 -> lost = []).
Proof.
  intro Hf. induction l as [|s l IH]; intro w; [exists []; split; auto; constructor|].
  assert (E : callback_each_with a (s :: l) w = mbind (f s) (fun _ => callback_each_with a l) (calling (ESms s) w)) by (rewrite Hf; reflexivity). rewrite E. unfold mbind.
  destruct (f s (calling (ESms s) w)) as [[[]|e] w1|w1] eqn:R.
  - destruct (IH w1) as (lost & P & L). exists lost. split; [apply (ps_next f s l _ w1 lost _ R P)|exact L].
  - exists l. split; [|discriminate]. apply ps_fails; auto. apply abrupt_err.
  - exists l. split; [|discriminate]. apply ps_fails; auto. apply abrupt_stuck.
Qed.
Lemma list_wait st del w : set_writeWait 0 (dev (last_of (listStoredSms st None del w))) = set_writeWait 0 (dev w).
Proof.
  assert (K : keeps (set_writeWait 0) (listStoredSms st None del)); [|apply K].
  assert (D : forall is, keeps (set_writeWait 0) (delete_each is)).
  { induction is as [|i is IH]; cbn [delete_each]; [keeps_tac|]. unfold deleteStoredSms, setSmsMemory. keeps_tac. auto. }
  unfold listStoredSms, deleteMultipleStoredSms, setSmsMemory. keeps_tac; auto.
Qed.
Lemma states_process a sts : Forall (fun s => 0 <= s) sts -> forall w, exists lost, processes (on_sms a) sts w lost (process_states_with a sts w).
Proof.
  induction 1 as [|st sts Hst F IH]; intro w; cbn [process_states_with]; [exists []; constructor|].
  unfold mbind at 1. pose proof (quiet_list st None true w) as (eq & Tq & Pq). pose proof (list_wait st true w) as Wt. destruct (listStoredSms st None true w) as [[msgs|e] w1|w1] eqn:L.
  - apply (list_run _ _ _ _ _ _ Hst) in L as (evs & T & M & (e0 & e1 & e2 & p & answer & es & -> & S0 & Sp & E1 & Tk & -> & C)).
    assert (e0 = []) as -> by (destruct S0 as [[-> _]|(mem & x & X & _)]; [auto|discriminate]). cbn [app] in T.
    assert (Li : listed st es w w1). { exists p, answer, e1, e2. repeat (split; auto). apply wait_only. auto. }
    unfold mbind at 1. destruct (each_passes (on_sms a) a (map snd es) (fun _ => eq_refl) w1) as (lost & P & L0). destruct (callback_each_with a (map snd es) w1) as [[[]|e] w2|w2].
    + rewrite (L0 _ eq_refl) in P. destruct (IH w2) as (lost' & P'). exists lost'. eapply pc_round; eauto.
    + exists lost. eapply pc_fails; eauto. apply abrupt_err.
    + exists lost. eapply pc_fails; eauto. apply abrupt_stuck.
  - exists []. eapply pc_unlisted; eauto; [unfold not_listed; rewrite L; auto|apply abrupt_err].
  - exists []. eapply pc_unlisted; eauto; [unfold not_listed; rewrite L; auto|apply abrupt_stuck].
Qed.
Theorem processing a (unreadOnly : bool) w : exists lost, processes (on_sms a) (if unreadOnly then [0] else [1; 0]) w lost (processStoredSms_with a unreadOnly w).
Proof. apply states_process. destruct unreadOnly; repeat constructor; lia. Qed.
(** a callback that always raises an exception *)
Lemma listed_quiet st es w w1 : listed st es w w1 -> exists evs, trace w1 = trace w ++ evs /\ passed evs = [].
Proof.
  intros (p & answer & e1 & e2 & _ & X & _ & C & T & _). exists (e1 ++ e2). split; auto. apply passed_not. apply Forall_app. split; [eapply not_sms_exchange; eauto|]. unfold cleared in C. destruct (st =? 4); [destruct C as (x & C); eapply not_sms_exchange; eauto|].
  destruct C as (is & _ & C). eapply not_sms_deletes; eauto.
Qed.
Theorem raising a e unreadOnly w : (forall s w, on_sms a s w = Done (Err e) w) ->
  let o := processStoredSms_with a unreadOnly w in
  exists evs, trace (last_of o) = trace w ++ evs /\ (length (passed evs) <= 1)%nat /\ (passed evs = [] \/ exists w', o = Done (Err e) w').
Proof.
  intros R o. unfold o. destruct (processing a unreadOnly w) as (lost & P). revert P. generalize (processStoredSms_with a unreadOnly w). generalize (if unreadOnly then [0] else [1; 0]). clear o unreadOnly. intros sts o P.
  assert (Q : forall l w1 lost o, passes (on_sms a) l w1 lost o -> (l = [] /\ o = Done (Ok tt) w1) \/ exists s, o = Done (Err e) (calling (ESms s) w1)).
  { intros l w1 ls o1 H. inversion H as [|s l' ? w2 ? ? F _|s l' ? ? F _]; subst; auto; rewrite R in *; [discriminate|eauto]. }
  induction P as [w|st sts es w w1 w2 lost o Li Ps _ IH|st sts es w w1 lost o Li Ps Ab|st sts w o evs _ T Pe _].
  - exists []. rewrite app_nil_r. cbn. auto.
  - apply Q in Ps as [[_ E]|(s & E)]; [|discriminate]. injection E as ->. destruct (listed_quiet _ _ _ _ Li) as (e1 & T1 & P1). destruct IH as (e2 & T2 & P2 & P3). exists (e1 ++ e2). rewrite T2, T1, app_assoc, passed_app, P1. auto.
  - destruct (listed_quiet _ _ _ _ Li) as (e1 & T1 & P1). apply Q in Ps as [[_ ->]|(s & ->)]; [destruct (Ab _ eq_refl)|]. exists (e1 ++ [ESms s]). cbn [last_of calling trace]. rewrite T1, app_assoc, passed_app, P1. cbn. eauto.
  - exists evs. rewrite Pe. cbn. auto.
Qed.
