From Verif Require Import Base RegexModel ModemCore TrackSpec SmsModel CallModel UssdModel NotifyModel ConnectModel PollModel TwinSpec.
From Verif Require NetworkModel.

Definition wearw (t : tones) (w : world) : world := mk_world (wear t (dev w)) (script w) (trace w).
Definition omap {A} (f : world -> world) (o : out A) : out A := match o with Done x w => Done x (f w) | Stuck w => Stuck (f w) end.
Definition plain {A} (c : M A) : Prop := forall t w, c (wearw t w) = omap (wearw t) (c w).
Lemma plain_ret {A} (x : A) : plain (ret x). Proof. intros t w. reflexivity. Qed.
Lemma plain_raise {A} e : plain (raise (A:=A) e). Proof. intros t w. reflexivity. Qed.
Lemma plain_lift {A} (x : res A) : plain (lift x). Proof. intros t w. reflexivity. Qed.
Lemma plain_tell e : plain (tell e). Proof. intros t w. reflexivity. Qed.
Lemma plain_bind {A B} (c : M A) (k : A -> M B) : plain c -> (forall x, plain (k x)) -> plain (mbind c k).
Proof. intros C K t w. unfold mbind. rewrite C. destruct (c w) as [[x|e] w1|w1]; cbn [omap]; auto. apply K. Qed.
Lemma plain_try {A} (c : M A) h : plain c -> (forall e k, h e = Some k -> plain k) -> plain (try_except c h).
Proof. intros C K t w. unfold try_except. rewrite C. destruct (c w) as [[x|e] w1|w1]; cbn [omap]; auto. destruct (h e) as [k|] eqn:E; auto. apply (K e); auto. Qed.
Lemma plain_get {B} (k : modem -> M B) : (forall t m, k (wear t m) = k m) -> (forall m, plain (k m)) -> plain (mbind get k).
Proof. intros E K t w. unfold mbind, get. cbn [dev wearw]. rewrite E. apply K. Qed.
Lemma plain_modify f : (forall t m, f (wear t m) = wear t (f m)) -> plain (modify f).
Proof. intros E t w. unfold modify, wearw. cbn [dev script trace omap]. rewrite E. reflexivity. Qed.
Lemma plain_write data term pe : plain (write_with data term pe).
Proof.
  intros t w. unfold write_with. cbn [script dev trace wearw]. generalize (dev w) (trace w). clear. induction (script w) as [|r sc IH]; intros m tr; [reflexivity|].
  cbn [write_on]. destruct r as [ls|[|l ls]]; try reflexivity. destruct (rev ls) as [|line l0]; [reflexivity|]. destruct pe; [|reflexivity].
  destruct (judge data line) as [|e|code]; try reflexivity.
  change (writeWait (wear t m)) with (writeWait m).
  change (set_writeWait (writeWait m + 2) (wear t m)) with (wear t (set_writeWait (writeWait m + 2) m)). cbn [writeWait wear set_dtmfHuawei set_dtmfSupport].
  change (writeWait (wear t (set_writeWait (writeWait m + 2) m))) with (writeWait (set_writeWait (writeWait m + 2) m)).
  rewrite IH. destruct (write_on sc (set_writeWait (writeWait m + 2) m) _ data term true) as [[x|e] w1|w1]; reflexivity.
Qed.
Lemma plain_nowait data : plain (write_nowait data).
Proof. intros t w. reflexivity. Qed.
Ltac plain_step :=
  match goal with
  | |- plain (ret _) => apply plain_ret
  | |- plain (raise _) => apply plain_raise
  | |- plain (lift _) => apply plain_lift
  | |- plain (tell _) => apply plain_tell
  | |- plain (write_with _ _ _) => apply plain_write
  | |- plain (write _) => apply plain_write
  | |- plain (write_noparse _) => apply plain_write
  | |- plain (write_nowait _) => apply plain_nowait
  | |- plain (modify _) => apply plain_modify; intros; try reflexivity
  | |- plain (mbind get _) => apply plain_get; [intros; try reflexivity|intro]
  | |- plain (mbind _ _) => apply plain_bind; [|intro]
  | |- plain (try_except _ _) => apply plain_try; [|intros ? ? ?]
  | |- plain (match ?x with _ => _ end) => destruct x
  | |- plain (let '(_, _) := ?x in _) => destruct x
  | H : ?h = Some ?k |- plain ?k => cbn beta in H; match type of H with (match ?x with _ => _ end) = _ => destruct x | Some _ = Some _ => injection H as <- | None = Some _ => discriminate H end
  | |- plain (first_line ?l) => destruct l; cbn [first_line]
  | H : forall _, plain _ |- _ => apply H
  | H : plain _ |- _ => apply H
  end.
Ltac plains := repeat plain_step.
Lemma plain_signal : plain signalStrength. Proof. unfold signalStrength. plains. Qed.
Lemma plain_query s : plain (query_first s). Proof. unfold query_first. plains. Qed.
Lemma plain_revision : plain revision. Proof. unfold revision. plains. apply plain_query. Qed.
Lemma plain_network : plain networkName. Proof. unfold networkName. plains. Qed.
Lemma plain_commands : plain supportedCommands. Proof. unfold supportedCommands. plains. Qed.
Lemma plain_coverage_loop fuel : forall timer b, plain (coverage_loop fuel timer b).
Proof. induction fuel as [|n IH]; intros timer b; cbn [coverage_loop]; plains; try apply plain_signal; auto. Qed.
Lemma plain_coverage timer : plain (waitForNetworkCoverage timer).
Proof. intros t w. unfold waitForNetworkCoverage. cbn [script wearw]. apply plain_coverage_loop. Qed.
Lemma plain_mode b : plain (set_text_mode b). Proof. unfold set_text_mode. plains. Qed.
Lemma plain_memory a b : plain (setSmsMemory a b). Proof. unfold setSmsMemory. plains. Qed.
Lemma plain_smsc : plain get_smsc. Proof. unfold get_smsc. plains. Qed.
Lemma plain_set_smsc n : plain (set_smsc n). Proof. unfold set_smsc. plains. Qed.
Lemma plain_send_pdus l : forall r, plain (send_pdus l r). Proof. induction l as [|p l IH]; intro r; cbn [send_pdus]; plains; auto. Qed.
Lemma plain_send n t f wt : plain (sendSms n t f wt). Proof. unfold sendSms, send_text. plains. apply plain_send_pdus. Qed.
Lemma plain_send_wait : plain sendSms_wait. Proof. unfold sendSms_wait. plains. Qed.
Lemma plain_reply s t : plain (NetworkModel.reply s t). Proof. unfold NetworkModel.reply. plains; apply plain_send. Qed.
Lemma plain_read i mem : plain (readStoredSms i mem). Proof. unfold readStoredSms. plains; apply plain_memory. Qed.
Lemma plain_delete i mem : plain (deleteStoredSms i mem). Proof. unfold deleteStoredSms. plains; apply plain_memory. Qed.
Lemma plain_delete_many i mem : plain (deleteMultipleStoredSms i mem). Proof. unfold deleteMultipleStoredSms. plains; apply plain_memory. Qed.
Lemma plain_delete_each l : plain (delete_each l). Proof. induction l; cbn [delete_each]; plains; apply plain_delete. Qed.
Lemma plain_list st mem del : plain (listStoredSms st mem del). Proof. unfold listStoredSms. plains; try apply plain_memory; try apply plain_delete_each; try apply plain_delete_many. Qed.
Lemma plain_callback_each l : plain (callback_each l). Proof. induction l; cbn [callback_each]; plains. Qed.
Lemma plain_process_states l : plain (process_states l). Proof. induction l; cbn [process_states]; plains; try apply plain_list; apply plain_callback_each. Qed.
Lemma plain_process b : plain (processStoredSms b). Proof. apply plain_process_states. Qed.
Lemma plain_received l : plain (handleSmsReceived l). Proof. unfold handleSmsReceived. plains; try apply plain_read; apply plain_delete. Qed.
Lemma plain_report l : plain (handleSmsStatusReport l). Proof. unfold handleSmsStatusReport. plains; try apply plain_read; try apply plain_delete. Qed.
Create HintDb plains.
Ltac plain_all := plains; auto with plains.
Lemma plain_change n f : plain (change_call n f). Proof. unfold change_call. plains. Qed.
#[export] Hint Resolve plain_change plain_memory plain_read plain_delete plain_received plain_report plain_write : plains.
Lemma plain_answered n b : plain (set_answered n b). Proof. unfold set_answered. plain_all. Qed.
Lemma plain_add c : plain (add_call c). Proof. unfold add_call. plain_all. Qed.
#[export] Hint Resolve plain_answered plain_add : plains.
Lemma plain_hangup n : plain (hangup n). Proof. unfold hangup. plain_all. Qed.
Lemma plain_answer n : plain (answer n). Proof. unfold answer. plain_all. Qed.
Lemma plain_dial n cb : plain (dial_start n cb). Proof. unfold dial_start, atd. plain_all. Qed.
Lemma plain_dial_end n cb : plain (dial_finish n cb). Proof. unfold dial_finish. plain_all. Qed.
Lemma plain_ring_each l : forall number found, plain (ring_each l number found). Proof. induction l as [|[id n] l IH]; intros number found; cbn [ring_each]; plain_all. Qed.
#[export] Hint Resolve plain_ring_each : plains.
Lemma plain_incoming l : plain (handleIncomingCall l). Proof. unfold handleIncomingCall. plain_all. Qed.
Lemma plain_int g k : plain (int_of g k). Proof. unfold int_of. plains. Qed.
#[export] Hint Resolve plain_int plain_incoming : plains.
Lemma plain_initiated g i ty : plain (handleCallInitiated g i ty). Proof. unfold handleCallInitiated. plain_all. Qed.
Lemma plain_by_id i : plain (answered_by_id i). Proof. unfold answered_by_id. plain_all. Qed.
#[export] Hint Resolve plain_by_id plain_initiated : plains.
Lemma plain_call_answered g i : plain (handleCallAnswered g i). Proof. unfold handleCallAnswered. plain_all. Qed.
Lemma plain_ended g i f : plain (handleCallEnded g i f). Proof. unfold handleCallEnded. plain_all. Qed.
Lemma plain_rejected g i : plain (handleCallRejected g i). Proof. apply plain_ended. Qed.
Lemma plain_handle_ussd l : plain (handleUssd l). Proof. unfold handleUssd. plain_all. Qed.
Lemma plain_ussd s : plain (sendUssd_start s). Proof. unfold sendUssd_start. plain_all. Qed.
#[export] Hint Resolve plain_call_answered plain_ended plain_rejected plain_handle_ussd plain_ussd : plains.
Lemma plain_ussd_end : plain sendUssd_finish. Proof. unfold sendUssd_finish. plain_all. Qed.
Lemma plain_ussd_reply u s : plain (ussd_reply u s). Proof. unfold ussd_reply. plain_all. Qed.
Lemma plain_ussd_cancel u : plain (ussd_cancel u). Proof. unfold ussd_cancel. plain_all. Qed.
Lemma plain_updates t line h : try_updates (call_updates t) line = Some h -> plain h.
Proof.
  assert (G : forall ups, Forall (fun u => forall g, plain (snd u g)) ups -> try_updates ups line = Some h -> plain h).
  { induction 1 as [|[r f] ups F _ IH]; cbn [try_updates]; [discriminate|]. destruct (re_match r line) as [w|]; auto. intros [= <-]. apply F. }
  apply G. destruct t; cbn [call_updates]; repeat constructor; cbn [snd]; intro g; auto with plains.
Qed.
Lemma plain_notify lines rest : plain (notify_each lines rest).
Proof.
  induction rest as [|line rest IH]; cbn [notify_each]; [plains|]. do 4 (match goal with |- plain (if ?b then _ else _) => destruct b; auto with plains end).
  apply plain_get; [reflexivity|]. intro m. destruct (try_updates _ _) as [h|] eqn:E; auto. apply plain_updates in E. exact E.
Qed.
Lemma plain_notified lines : plain (handleNotification lines). Proof. apply plain_notify. Qed.
Lemma plain_poll_loop fuel : forall al st id tl, plain (poll_loop modem_handlers fuel al st id tl).
Proof. induction fuel as [|n IH]; intros al st id tl; cbn [poll_loop]; [plains|]. unfold modem_handlers in *. cbn [on_initiated on_answered on_ended on_rejected] in *. plain_all. Qed.
Lemma plain_poll al timeout : plain (pollCallStatus al timeout).
Proof. intros t w. unfold pollCallStatus. cbn [script wearw]. apply plain_poll_loop. Qed.

Lemma plain_usual A (c : M A) : usual A c -> plain c.
Proof.
  destruct 1; [apply plain_write|apply plain_nowait|apply plain_signal|apply plain_query|apply plain_query|apply plain_query|apply plain_query|apply plain_revision|apply plain_network|apply plain_commands|
    apply plain_coverage|apply plain_mode|apply plain_smsc|apply plain_set_smsc|apply plain_send|apply plain_send_wait|apply plain_reply|apply plain_read|apply plain_delete|apply plain_delete_many|
    apply plain_list|apply plain_process|apply plain_ussd|apply plain_ussd_end|apply plain_ussd_reply|apply plain_ussd_cancel|apply plain_dial|apply plain_dial_end|apply plain_poll|apply plain_answer|
    apply plain_hangup|apply plain_notified].
Qed.

(** ** Code whose result, events and other attributes do not depend on the tones *)
Definition eqw (w w' : world) : Prop := script w = script w' /\ trace w = trace w' /\ forall t, wear t (dev w) = wear t (dev w').
Definition eqo {A} (o o' : out A) : Prop :=
  match o, o' with Done x w, Done x' w' => x = x' /\ eqw w w' | Stuck w, Stuck w' => eqw w w' | _, _ => False end.
Definition ignores {A} (c : M A) : Prop := forall w w', eqw w w' -> eqo (c w) (c w').
Lemma eqw_refl w : eqw w w. Proof. split; [|split]; auto. Qed.
Lemma wear_own m : wear (tones_of m) m = m. Proof. destruct m. reflexivity. Qed.
Lemma wear_wear t t' m : wear t (wear t' m) = wear t m. Proof. reflexivity. Qed.
Lemma tones_wear t m : tones_of (wear t m) = t. Proof. destruct t. reflexivity. Qed.
Lemma eqw_wear w w' : eqw w w' -> w' = wearw (tones_of (dev w')) w.
Proof. intros (S & T & W). unfold wearw. rewrite W, wear_own, S, T. destruct w'. reflexivity. Qed.
Lemma plain_ignores {A} (c : M A) : plain c -> ignores c.
Proof.
  intros P w w' E. rewrite (eqw_wear _ _ E), P. destruct (c w) as [x v|v]; cbn [omap eqo]; [split; [reflexivity|]|]; split; [reflexivity|split; reflexivity|reflexivity|split; reflexivity].
Qed.
Lemma ignores_bind {A B} (c : M A) (k : A -> M B) : ignores c -> (forall x, ignores (k x)) -> ignores (mbind c k).
Proof.
  intros C K w w' E. specialize (C w w' E). unfold mbind. destruct (c w) as [[x|e] v|v]; destruct (c w') as [x' v'|v']; cbn [eqo] in C; try tauto.
  - destruct C as [<- C]. apply K. exact C.
  - destruct C as [<- C]. split; auto.
Qed.
Lemma ignores_try {A} (c : M A) h : ignores c -> (forall e k, h e = Some k -> ignores k) -> ignores (try_except c h).
Proof.
  intros C K w w' E. specialize (C w w' E). unfold try_except. destruct (c w) as [[x|e] v|v]; destruct (c w') as [x' v'|v']; cbn [eqo] in C; try tauto.
  - destruct C as [<- C]. split; auto.
  - destruct C as [<- C]. destruct (h e) as [k|] eqn:H; [|split; auto]. exact (K e k H v v' C).
Qed.
Lemma ignores_modify f : (forall t t' m, wear t (f (wear t' m)) = wear t (f m)) -> ignores (modify f).
Proof.
  intros F w w' E. rewrite (eqw_wear _ _ E). split; [reflexivity|]. split; [reflexivity|]. split; [reflexivity|]. intro t. cbn [dev modify wearw]. rewrite F. reflexivity.
Qed.
Ltac ignore_step :=
  match goal with
  | |- ignores (modify _) => apply ignores_modify; intros; reflexivity
  | |- ignores (mbind get _) => apply plain_ignores; plain_all; fail
  | |- ignores (mbind _ _) => apply ignores_bind; [|intro]
  | |- ignores (if ?b then _ else _) => destruct b
  | |- ignores (match ?x with _ => _ end) => destruct x
  end.
Lemma plain_unlock pin : plain (unlockSim pin). Proof. unfold unlockSim, forget. plain_all. Qed.
#[export] Hint Resolve plain_unlock plain_smsc plain_set_smsc plain_commands plain_query : plains.
Lemma plain_reset pin : plain (connect_reset pin).
Proof. unfold connect_reset, forget, on_CommandError. plain_all. Qed.
Lemma plain_sms : plain connect_sms. Proof. unfold connect_sms. plain_all. Qed.
Lemma plain_connect_memory : plain connect_memory. Proof. unfold connect_memory, on_CommandError, forget. plain_all. Qed.
Lemma plain_notifications : plain connect_notifications. Proof. unfold connect_notifications, on_CommandError, forget. plain_all. Qed.
Lemma ignores_table cs h : ignores (connect_table cs h).
Proof. unfold connect_table. repeat ignore_step; apply plain_ignores; plain_all. Qed.
Lemma ignores_hint cs : ignores (connect_hint cs).
Proof.
  unfold connect_hint, forget, manufacturer, on_CommandError. apply ignores_bind.
  - destruct cs as [l|]; [|apply plain_ignores; plain_all]. apply ignores_bind; [apply plain_ignores; plain_all|intros _]. apply ignores_bind; [|intro; apply plain_ignores; plain_all].
    destruct (mem_str _ _); [|apply plain_ignores; plain_all]. apply ignores_bind; [|intro; apply plain_ignores; plain_all]. apply ignores_modify. intros. reflexivity.
  - intros [h b]. apply plain_ignores. plain_all.
Qed.
Lemma ignores_connect pin : ignores (connect pin).
Proof.
  unfold connect. apply ignores_bind; [apply plain_ignores; plain_all|intros _]. apply ignores_bind; [apply plain_ignores, plain_reset|intros _].
  apply ignores_bind; [apply plain_ignores, plain_commands|intro cs]. apply ignores_bind; [apply ignores_hint|intro h]. apply ignores_bind; [apply ignores_table|intros _].
  apply ignores_bind; [apply plain_ignores; plain_all|intros _]. apply ignores_bind; [apply plain_ignores, plain_sms|intros _].
  apply ignores_bind; [apply plain_ignores, plain_connect_memory|intros _]. apply plain_ignores, plain_notifications.
Qed.

(** ** Code that leaves the tones alone *)
Definition leaves {A} (c : M A) : Prop := forall w x w', c w = Done x w' -> tones_of (dev w') = tones_of (dev w).
Lemma plain_leaves {A} (c : M A) : plain c -> leaves c.
Proof.
  intros P w x w' E. assert (W : wearw (tones_of (dev w)) w = w) by (unfold wearw; rewrite wear_own; destruct w; reflexivity).
  pose proof (P (tones_of (dev w)) w) as Q. rewrite W, E in Q. cbn [omap] in Q. injection Q as Q. rewrite Q. cbn [dev wearw]. apply tones_wear.
Qed.
Lemma leaves_tone n s : leaves (sendDtmfTone n s).
Proof.
  intros w x w' E. unfold sendDtmfTone in E. unfold mbind at 1, get in E. destruct (c_answered _); [|injection E as <- <-; reflexivity].
  revert E. apply plain_leaves. plain_all.
Qed.
(** tones that are set are never set back *)
Definition grows {A} (c : M A) : Prop := forall w x w', c w = Done x w' ->
  (dtmfHuawei (dev w) = true -> dtmfHuawei (dev w') = true) /\ (dtmfSupport (dev w) = true -> dtmfSupport (dev w') = true).
Lemma leaves_grows {A} (c : M A) : leaves c -> grows c.
Proof. intros L w x w' E. apply L in E. unfold tones_of in E. injection E as E1 E2. rewrite E1, E2. auto. Qed.
Lemma grows_bind {A B} (c : M A) (k : A -> M B) : grows c -> (forall x, grows (k x)) -> grows (mbind c k).
Proof.
  intros C K w x w' E. unfold mbind in E. destruct (c w) as [[y|e] v|v] eqn:D; try discriminate E.
  - destruct (C _ _ _ D), (K _ _ _ _ E). auto.
  - injection E as <- <-. apply (C _ _ _ D).
Qed.
Lemma grows_modify f : (forall m, (dtmfHuawei m = true -> dtmfHuawei (f m) = true) /\ (dtmfSupport m = true -> dtmfSupport (f m) = true)) -> grows (modify f).
Proof. intros F w x w' [= <- <-]. apply F. Qed.
Lemma plain_grows {A} (c : M A) : plain c -> grows c. Proof. intro P. apply leaves_grows, plain_leaves, P. Qed.
Lemma grows_connect pin : grows (connect pin).
Proof.
  unfold connect. apply grows_bind; [apply plain_grows; plain_all|intros _]. apply grows_bind; [apply plain_grows, plain_reset|intros _].
  apply grows_bind; [apply plain_grows, plain_commands|intro cs]. apply grows_bind.
  { unfold connect_hint, forget, manufacturer, on_CommandError. apply grows_bind.
    - destruct cs as [l|]; [|apply plain_grows; plain_all]. apply grows_bind; [apply plain_grows; plain_all|intros _]. apply grows_bind; [|intro; apply plain_grows; plain_all].
      destruct (mem_str _ _); [|apply plain_grows; plain_all]. apply grows_bind; [|intro; apply plain_grows; plain_all]. apply grows_modify. intros. auto.
    - intros [h b]. apply plain_grows. plain_all. }
  intro h. apply grows_bind.
  { unfold connect_table. destruct cs; repeat match goal with
      | |- grows (if ?b then _ else _) => destruct b
      | |- grows (mbind _ _) => apply grows_bind; [|intro]
      | |- grows (modify _) => apply grows_modify; intros; cbn; auto
      | |- grows (ret _) => apply plain_grows, plain_ret end. }
  intros _. apply grows_bind; [apply plain_grows; plain_all|intros _]. apply grows_bind; [apply plain_grows, plain_sms|intros _].
  apply grows_bind; [apply plain_grows, plain_connect_memory|intros _]. apply plain_grows, plain_notifications.
Qed.
