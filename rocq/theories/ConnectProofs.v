(** Proofs about connect: the SIM PIN. *)
From Verif Require Import Base ModemCore ModemSpec WriteProofs MonadProofs SendSpec SendProofs TrackSpec CoverageSpec CoverageProofs QueryProofs TrieProofs ModemFinal SmsModel CallModel ConnectModel ConnectSpec.

(** ** Methods all of whose events have a property *)
Definition only {A} (P : event -> Prop) (c : M A) : Prop := forall w, exists evs, trace (last_of (c w)) = trace w ++ evs /\ Forall P evs.
Lemma only_ret {A} (P : event -> Prop) (x : A) : only P (ret x). Proof. intro w. exists []. rewrite app_nil_r. auto. Qed.
Lemma only_raise {A} (P : event -> Prop) e : only P (@raise A e). Proof. intro w. exists []. rewrite app_nil_r. auto. Qed.
Lemma only_lift {A} (P : event -> Prop) (x : res A) : only P (lift x). Proof. intro w. exists []. rewrite app_nil_r. auto. Qed.
Lemma only_get (P : event -> Prop) : only P get. Proof. intro w. exists []. rewrite app_nil_r. auto. Qed.
Lemma only_modify (P : event -> Prop) f : only P (modify f). Proof. intro w. exists []. rewrite app_nil_r. auto. Qed.
Lemma only_tell (P : event -> Prop) e : P e -> only P (tell e). Proof. intros H w. exists [e]. auto. Qed.
Lemma only_bind {A B} (P : event -> Prop) (c : M A) (k : A -> M B) : only P c -> (forall x, only P (k x)) -> only P (mbind c k).
Proof.
  intros H1 H2 w. destruct (H1 w) as (e1 & T1 & F1). unfold mbind. destruct (c w) as [[a|e] w1|w1]; cbn [last_of] in *; [|exists e1; auto|exists e1; auto].
  destruct (H2 a w1) as (e2 & T2 & F2). exists (e1 ++ e2). rewrite T2, T1, app_assoc. split; auto. apply Forall_app. auto.
Qed.
Lemma only_try {A} (P : event -> Prop) (c : M A) h : only P c -> (forall e k, h e = Some k -> only P k) -> only P (try_except c h).
Proof.
  intros H1 H2 w. destruct (H1 w) as (e1 & T1 & F1). unfold try_except. destruct (c w) as [[a|e] w1|w1]; cbn [last_of] in *; [exists e1; auto| |exists e1; auto].
  destruct (h e) as [k|] eqn:E; [|exists e1; auto]. destruct (H2 _ _ E w1) as (e2 & T2 & F2). exists (e1 ++ e2). rewrite T2, T1, app_assoc. split; auto. apply Forall_app. auto.
Qed.
Lemma only_on {A} (P : event -> Prop) (k : M A) : only P k -> forall e k', on_CommandError k e = Some k' -> only P k'.
Proof. intros H e k' E. unfold on_CommandError in E. destruct (is_CommandError e); [injection E as <-; auto|discriminate]. Qed.
Lemma only_write (P : event -> Prop) data term pe : (forall r, P (EWrite (data ++ term) r)) -> (forall t, P (ESleep t)) -> only P (write_with data term pe).
Proof.
  intros H1 H2 w. destruct pe.
  - destruct (write_with data term true w) as [x w'|w'] eqn:W; cbn [last_of].
    + apply write_done in W as (busy & codes & r & _ & _ & _ & _ & _ & T). eexists. split; [exact T|].
      apply attempts_forall; auto.
    + apply stuck_exchange in W as (evs & T & (wait & busy & codes & r & E & _)). exists evs. split; auto.
      assert (F : Forall P (evs ++ [EWrite (data ++ term) (Some (NoReply []))])).
      { rewrite E. apply attempts_forall; auto. }
      apply Forall_app in F as [F _]. auto.
  - pose proof (write_noparse_any data term w) as W. destruct (script w) as [|r rest]; [rewrite W; exists []; rewrite app_nil_r; auto|].
    destruct W as (x & -> & _). cbn [last_of trace]. unfold settled. destruct r as [ls|ls].
    + eexists. split; [reflexivity|]. constructor; auto. unfold pause. destruct (0 <? _); auto.
    + eexists. split; [reflexivity|]. auto.
Qed.
Lemma only_weaken {A} (P Q : event -> Prop) (c : M A) : (forall e, P e -> Q e) -> only P c -> only Q c.
Proof. intros H O w. destruct (O w) as (evs & T & F). exists evs. split; auto. eapply Forall_impl; eauto. Qed.
Ltac only_tac :=
  repeat first
  [ apply only_bind; [|intros ?] | apply only_ret | apply only_raise | apply only_lift | apply only_get | apply only_modify
  | apply only_on
  | apply only_try; [|first [apply only_on|intros ? ? ?]]
  | match goal with |- only _ (if ?b then _ else _) => destruct b end
  | match goal with |- only _ (match ?b with _ => _ end) => destruct b end ].

(** ** Nothing but _unlockSim sends the PIN *)
Definition not_pin (e : event) : Prop := match e with EWrite t _ => ~ sends_pin t | _ => True end.
Lemma not_pin_text t : startswith t (lit "AT+CPIN=") = false -> forall r, not_pin (EWrite t r).
Proof. intros H r (x & ->). destruct x; vm_compute in H; discriminate H. Qed.
Ltac np := apply only_write; [intro; apply not_pin_text; reflexivity|intro; exact Logic.I].
Definition np_ok {A} (c : M A) : Prop := only not_pin c.
Ltac handler_tac := repeat match goal with
  | H : (match ?x with _ => _ end) = Some _ |- _ => destruct x; try discriminate H
  | H : Some _ = Some ?k |- only _ ?k => injection H as <-
  end.
Ltac np_tac := unfold np_ok; only_tac; try np; handler_tac; only_tac; try np.
(** most methods do not even ask about it *)
Definition not_cpin (e : event) : Prop := match e with EWrite t _ => ~ starts_with (lit "AT+CPIN") t | _ => True end.
Lemma not_cpin_text t : startswith t (lit "AT+CPIN") = false -> forall r, not_cpin (EWrite t r).
Proof. intros H r (x & ->). destruct x; vm_compute in H; discriminate H. Qed.
Definition nc_ok {A} (c : M A) : Prop := only not_cpin c.
Lemma nc_np {A} (c : M A) : nc_ok c -> np_ok c.
Proof. apply only_weaken. intros [t r|t|x|x|o|o] H; cbn; auto. intros (x & ->). apply H. exists (61 :: x). reflexivity. Qed.
Ltac nc := apply only_write; [intro; apply not_cpin_text; reflexivity|intro; exact Logic.I].
Ltac nc_tac := unfold nc_ok; only_tac; try nc; handler_tac; only_tac; try nc.
Lemma nc_get_smsc : nc_ok get_smsc.
Proof.
  unfold get_smsc. nc_tac.
Qed.
Lemma nc_set_smsc n : nc_ok (set_smsc n).
Proof. unfold set_smsc. nc_tac. Qed.
Lemma nc_commands : nc_ok supportedCommands.
Proof. unfold supportedCommands. nc_tac. Qed.
Lemma nc_hint commands : nc_ok (connect_hint commands).
Proof. unfold connect_hint, manufacturer, query_first, first_line, forget. nc_tac. Qed.
Lemma nc_table commands hint : nc_ok (connect_table commands hint).
Proof. unfold connect_table. nc_tac. Qed.
Lemma nc_sms : nc_ok connect_sms.
Proof. unfold connect_sms. nc_tac; first [apply nc_get_smsc|apply nc_set_smsc|idtac]. Qed.
Lemma nc_memory : nc_ok connect_memory.
Proof. unfold connect_memory, forget. nc_tac. Qed.
Lemma nc_notifications : nc_ok connect_notifications.
Proof. unfold connect_notifications, forget. nc_tac. Qed.

(** ** Sending a command *)
Lemma write_asked data term w : exists evs sent, trace (last_of (write_with data term true w)) = trace w ++ evs /\
  asked evs = map (fun r => (data ++ term, Some r)) sent /\ Forall is_busy (removelast sent) /\
  match write_with data term true w with
  | Done x _ => exists busy r, sent = busy ++ [r] /\ outcome data r x
  | Stuck _ => Forall is_busy sent
  end.
Proof.
  assert (AB : forall busy codes, all_busy busy codes -> Forall is_busy busy).
  { induction 1; constructor; auto. eexists; eauto. }
  destruct (write_with data term true w) as [x w'|w'] eqn:W; cbn [last_of].
  - apply write_done in W as (busy & codes & r & _ & B & _ & O & _ & T). exists (attempts (data ++ term) (writeWait (dev w)) busy r), (busy ++ [r]).
    rewrite asked_attempts, removelast_last. eauto 10.
  - apply stuck_exchange in W as (evs & T & (wait & busy & codes & r & E & B & _)). exists evs, busy. split; auto.
    assert (A : asked (evs ++ [EWrite (data ++ term) (Some (NoReply []))]) = map (fun r => (data ++ term, Some r)) (busy ++ [r])) by (rewrite E; apply asked_attempts).
    rewrite asked_app, map_app in A. cbn in A. apply app_inj_tail in A as [A _]. split; auto. pose proof (AB _ _ B) as F. split; auto.
    clear - F. induction F as [|y l H F IH]; [constructor|]. destruct l; cbn; [constructor|constructor; auto].
Qed.

(** ** The shape of what connect sends *)
Definition pin_shape {A} (pin : option str) (c : M A) : Prop := forall w, exists evs, trace (last_of (c w)) = trace w ++ evs /\ pin_use pin (asked evs).
Lemma np_asked evs : Forall not_pin evs <-> no_pin (asked evs).
Proof.
  unfold no_pin. induction evs as [|e evs IH]; [split; constructor|]. rewrite Forall_cons_iff, IH.
  destruct e; cbn; fold (asked evs); try (rewrite ?Forall_cons_iff; cbn; tauto).
Qed.
Lemma no_pin_app a b : no_pin (a ++ b) <-> no_pin a /\ no_pin b. Proof. apply Forall_app. Qed.
Lemma use_left pin a b : no_pin a -> pin_use pin b -> pin_use pin (a ++ b).
Proof.
  intros N [H|(p & be & rq & sent & af & E & -> & N1 & N2 & R & B)]; [left; apply no_pin_app; auto|right].
  exists p, (a ++ be), rq, sent, af. rewrite app_assoc. repeat split; auto. apply no_pin_app; auto.
Qed.
Lemma use_right pin a b : pin_use pin a -> no_pin b -> pin_use pin (a ++ b).
Proof.
  intros [H|(p & be & rq & sent & af & E & -> & N1 & N2 & R & B)] N; [left; apply no_pin_app; auto|right].
  exists p, be, rq, sent, (af ++ b). rewrite <- app_assoc. cbn. rewrite <- app_assoc. repeat split; auto. apply no_pin_app; auto.
Qed.
Lemma shape_np {A} pin (c : M A) : np_ok c -> pin_shape pin c.
Proof. intros H w. destruct (H w) as (evs & T & F). exists evs. split; auto. left. apply np_asked. auto. Qed.
Lemma shape_left {A B} pin (c : M A) (k : A -> M B) : np_ok c -> (forall x, pin_shape pin (k x)) -> pin_shape pin (mbind c k).
Proof.
  intros H1 H2 w. destruct (H1 w) as (e1 & T1 & F1). apply np_asked in F1. unfold mbind.
  destruct (c w) as [[a|e] w1|w1]; cbn [last_of] in *; [|exists e1; split; [auto|left; auto]..].
  destruct (H2 a w1) as (e2 & T2 & U). exists (e1 ++ e2). rewrite T2, T1, app_assoc, asked_app. split; auto. apply use_left; auto.
Qed.
Lemma shape_right {A B} pin (c : M A) (k : A -> M B) : pin_shape pin c -> (forall x, np_ok (k x)) -> pin_shape pin (mbind c k).
Proof.
  intros H1 H2 w. destruct (H1 w) as (e1 & T1 & F1). unfold mbind.
  destruct (c w) as [[a|e] w1|w1]; cbn [last_of] in *; [|exists e1; split; auto..].
  destruct (H2 a w1) as (e2 & T2 & U). exists (e1 ++ e2). rewrite T2, T1, app_assoc, asked_app. split; auto. apply use_right; auto. apply np_asked; auto.
Qed.

(** ** _unlockSim *)
Definition cpin_query : M (option str) :=
  try_except (do ls <- write (lit "AT+CPIN?"); ret (lineStartingWith (lit "+CPIN") ls))
      (fun e => match e with
                | TimeoutException (Some data) =>
                    match lineStartingWith (lit "+CPIN") data with Some l => Some (ret (Some l)) | None => None end
                | _ => None
                end).
Lemma query_np : np_ok cpin_query.
Proof. unfold cpin_query. np_tac. Qed.
Lemma query_reply w y w1 : cpin_query w = Done (Ok y) w1 -> exists qs rq, trace w1 = trace w ++ qs /\ no_pin (asked qs) /\
  (exists before, asked qs = before ++ [(pin_query, Some rq)]) /\ (y = Some (lit "+CPIN: READY") <-> sim_ready rq).
Proof.
  intro H. destruct (query_np w) as (qs0 & T0 & N0). rewrite H in T0. cbn [last_of] in T0.
  destruct (write_asked (lit "AT+CPIN?") CR w) as (evs & sent & T & A & _ & R).
  unfold cpin_query, try_except, mbind, write in H. unfold CR in *. 
  assert (RD : forall ls rq, lines_in rq = ls -> lineStartingWith (lit "+CPIN") ls = Some (lit "+CPIN: READY") <-> sim_ready rq).
  { intros ls rq E. pose proof (first_line_iff (lit "+CPIN") ls) as F. split.
    - intro L. rewrite L in F. destruct F as (b & a & -> & _ & F). exists b, a. auto.
    - intros (b & a & E' & F'). rewrite E in E'. destruct (lineStartingWith (lit "+CPIN") ls) as [l|].
      + destruct F as (b1 & a1 & E1 & S1 & F1). subst ls. rewrite E' in E1. clear - E1 F' F1 S1.
        revert b1 E1 F1. induction F' as [|x b N F' IH]; intros [|x1 b1] E1 F1; cbn in E1; injection E1 as <- E1; auto.
        * inversion F1; subst. exfalso. apply H1. eexists; reflexivity.
        * contradiction.
        * inversion F1; subst. eauto.
      + exfalso. rewrite E' in F. apply Forall_app in F as [_ F]. inversion F; subst. apply H2. eexists; reflexivity. }
  exists evs. destruct (write_with (lit "AT+CPIN?") [13] true w) as [[ls|e] w2|w2] eqn:W; [| |discriminate]; cbn [last_of] in T; destruct R as (busy & r & -> & O).
  - injection H as <- <-. exists r. rewrite T in T0. apply app_inv_head in T0 as <-. split; auto. split; [apply np_asked; auto|].
    split; [rewrite A, map_app; eexists; reflexivity|]. apply RD. apply outcome_ok in O as [-> _]. reflexivity.
  - destruct e; try discriminate H. destruct data as [data|]; try discriminate H. destruct (lineStartingWith (lit "+CPIN") data) as [l|] eqn:L; [|discriminate H].
    injection H as <- <-. exists r. rewrite T in T0. apply app_inv_head in T0 as <-. split; auto. split; [apply np_asked; auto|].
    split; [rewrite A, map_app; eexists; reflexivity|]. rewrite <- L. apply RD. inversion O; subst; auto;
    match goal with H : exception_for _ _ _ _ |- _ => inversion H end.
Qed.
Lemma unlock_eq pin w : unlockSim pin w = mbind cpin_query (fun y =>
  if opt_str_eqb y (Some (lit "+CPIN: READY")) then ret tt
  else match pin with
       | Some p => forget (write (lit "AT+CPIN=""" ++ p ++ lit """"))
       | None => raise (PinRequiredError (lit "AT+CPIN") 11)
       end) w.
Proof. reflexivity. Qed.
Lemma ready_eqb y : opt_str_eqb y (Some (lit "+CPIN: READY")) = true <-> y = Some (lit "+CPIN: READY").
Proof. unfold opt_str_eqb. destruct y as [y|]; [|split; discriminate]. destruct (str_eqb_spec y (lit "+CPIN: READY")); split; congruence. Qed.
Lemma unlock_shape pin w : exists evs, trace (last_of (unlockSim pin w)) = trace w ++ evs /\ pin_use pin (asked evs) /\
  match unlockSim pin w with Done (Ok _) _ => unlocked pin (asked evs) | _ => True end.
Proof.
  rewrite unlock_eq. unfold mbind. destruct (query_np w) as (e1 & T1 & F1). apply np_asked in F1.
  destruct (cpin_query w) as [[y|e] w1|w1] eqn:Q; cbn [last_of] in *; [|exists e1; split; [auto|split; [left; auto|auto]]..].
  apply query_reply in Q as (qs & rq & T & N & (before & A) & R). rewrite T1 in T. apply app_inv_head in T as <-.
  destruct (opt_str_eqb y (Some (lit "+CPIN: READY"))) eqn:E.
  - apply ready_eqb in E. exists e1. cbn. split; auto. split; [left; auto|]. left. exists rq. split; [rewrite A; apply in_or_app; right; left; auto|tauto].
  - assert (NR : ~ sim_ready rq). { intro H. apply R, ready_eqb in H. congruence. }
    destruct pin as [p|]; [|exists e1; cbn; split; [auto|split; [left; auto|auto]]].
    unfold forget, mbind, write. change (lit "AT+CPIN=""" ++ p ++ lit """") with (pin_command p).
    destruct (write_asked (pin_command p) CR w1) as (evs & sent & T & A2 & B & O). exists (e1 ++ evs). rewrite asked_app.
    assert (U : pin_use (Some p) (asked e1 ++ asked evs)).
    { right. exists p, before, rq, sent, []. rewrite A, A2, app_nil_r, <- app_assoc. unfold no_pin in *. rewrite A in N. apply Forall_app in N as [N _].
      repeat split; auto. }
    destruct (write_with (pin_command p) CR true w1) as [[ls|e] w2|w2]; cbn [last_of ret] in *; rewrite T, T1, app_assoc; split; auto; split; auto.
    destruct O as (busy & r & -> & O). apply outcome_ok in O as (-> & ls0 & line & -> & G). right. exists p, (ls0 ++ [line]). split; auto. split.
    + apply in_or_app. right. rewrite A2, map_app. apply in_or_app. right. left. reflexivity.
    + exists ls0, line. auto.
Qed.

(** ** connect *)
Lemma unlocked_app pin a b : unlocked pin a \/ unlocked pin b -> unlocked pin (a ++ b).
Proof.
  intros [[(rq & I & R)|(p & ls & E & I & G)]|[(rq & I & R)|(p & ls & E & I & G)]]; [left; exists rq|right; exists p, ls|left; exists rq|right; exists p, ls]; eauto using in_or_app.
Qed.
Definition result_use {A} (pin : option str) (c : M A) (Q : A -> list (str * option reply) -> Prop) : Prop :=
  forall w, exists evs, trace (last_of (c w)) = trace w ++ evs /\ pin_use pin (asked evs) /\
    match c w with Done (Ok x) _ => Q x (asked evs) | _ => True end.
Lemma result_np {A B} pin (c : M A) (k : A -> M B) (Q : B -> list (str * option reply) -> Prop) :
  (forall x a b, Q x b -> Q x (a ++ b)) -> np_ok c -> (forall x, result_use pin (k x) Q) -> result_use pin (mbind c k) Q.
Proof.
  intros M H1 H2 w. destruct (H1 w) as (e1 & T1 & F1). apply np_asked in F1. unfold mbind.
  destruct (c w) as [[a|e] w1|w1]; cbn [last_of] in *; [|exists e1; split; [auto|split; [left; auto|auto]]..].
  destruct (H2 a w1) as (e2 & T2 & U & R). exists (e1 ++ e2). rewrite T2, T1, app_assoc, asked_app. split; auto. split; [apply use_left; auto|].
  destruct (k a w1) as [[x|e] w2|w2]; auto.
Qed.
Lemma result_rest {A B} pin (c : M A) (k : A -> M B) (Q : list (str * option reply) -> Prop) :
  (forall a b, Q a -> Q (a ++ b)) -> result_use pin c (fun _ => Q) -> (forall x, np_ok (k x)) -> result_use pin (mbind c k) (fun _ => Q).
Proof.
  intros M H1 H2 w. destruct (H1 w) as (e1 & T1 & U & R). unfold mbind.
  destruct (c w) as [[a|e] w1|w1]; cbn [last_of] in *; [|exists e1; split; auto..].
  destruct (H2 a w1) as (e2 & T2 & F2). apply np_asked in F2. exists (e1 ++ e2). rewrite T2, T1, app_assoc, asked_app. split; auto. split; [apply use_right; auto|].
  destruct (k a w1) as [[x|e] w2|w2]; auto.
Qed.
Definition unlocks {A} pin (c : M A) : Prop := result_use pin c (fun _ => unlocked pin).
Lemma unlock_unlocks pin : unlocks pin (unlockSim pin).
Proof. intro w. apply unlock_shape. Qed.
Definition reset_first (pin : option str) : M bool :=
  try_except (write (lit "ATZ") ;;; ret false)
      (on_CommandError (write_noparse (lit "AT+CMEE=1") ;;; unlockSim pin ;;; write (lit "ATZ") ;;; ret true)).
Definition reset_middle : M unit :=
  write (lit "ATE0") ;;;
  try_except
    (do ls <- write (lit "AT+CFUN?");
     do cfun <- lift (int_from_7 (lineStartingWith (lit "+CFUN:") ls));
     if negb (cfun =? 1) then forget (write (lit "AT+CFUN=1")) else ret tt)
    (on_CommandError (ret tt)) ;;;
  write (lit "AT+CMEE=1") ;;; ret tt.
Lemma reset_eq pin w : connect_reset pin w = mbind (reset_first pin) (fun b => reset_middle ;;; if b then ret tt else unlockSim pin) w.
Proof.
  unfold connect_reset, reset_middle. fold (reset_first pin). unfold mbind. destruct (reset_first pin w) as [[b|e] w1|w1]; auto.
  destruct (write (lit "ATE0") w1) as [[ls|e] w2|w2]; auto.
  destruct (try_except _ _ w2) as [[[]|e] w3|w3]; auto. destruct (write (lit "AT+CMEE=1") w3) as [[l|e] w4|w4]; auto.
Qed.
Lemma middle_nc : nc_ok reset_middle.
Proof. unfold reset_middle, forget. nc_tac. Qed.
Lemma middle_np : np_ok reset_middle. Proof. apply nc_np, middle_nc. Qed.
Lemma first_shape pin : result_use pin (reset_first pin) (fun b evs => if b then unlocked pin evs else no_pin evs).
Proof.
  intro w. unfold reset_first, try_except. 
  assert (N : np_ok (write (lit "ATZ") ;;; ret false)) by np_tac. destruct (N w) as (e1 & T1 & F1). apply np_asked in F1.
  assert (F : forall w0 b w1, (write (lit "ATZ") ;;; ret false) w0 = Done (Ok b) w1 -> b = false).
  { intros w0 b w1 H. apply bind_done in H as [(a & w2 & _ & H)|(e & _ & H)]; [unfold ret in H|discriminate]. congruence. }
  destruct ((write (lit "ATZ") ;;; ret false) w) as [[b|e] w1|w1] eqn:W; cbn [last_of] in *.
  - exists e1. rewrite (F _ _ _ W). split; auto. split; [left|]; auto.
  - unfold on_CommandError. destruct (is_CommandError e); cbn [last_of]; [|exists e1; split; auto; split; [left; auto|auto]].
    assert (U : unlocks pin (write_noparse (lit "AT+CMEE=1") ;;; unlockSim pin ;;; write (lit "ATZ") ;;; ret true)).
    { apply result_np; [intros; apply unlocked_app; auto|unfold write_noparse; np|intros _].
      apply result_rest; [intros; apply unlocked_app; auto|apply unlock_unlocks|intros _]. np_tac. }
    destruct (U w1) as (e2 & T2 & U2 & R). exists (e1 ++ e2). rewrite T2, T1, app_assoc, asked_app. split; auto. split; [apply use_left; auto|].
    destruct ((_ ;;; _) w1) as [[b|e'] w2|w2] eqn:E2; auto.
    assert (b = true) as ->; [|apply unlocked_app; auto].
    apply bind_ok in E2 as (? & ? & _ & E2). apply bind_ok in E2 as (? & ? & _ & E2). apply bind_ok in E2 as (? & ? & _ & E2). unfold ret in E2. congruence.
  - exists e1. split; auto. split; [left; auto|auto].
Qed.
Lemma reset_unlocks pin : unlocks pin (connect_reset pin).
Proof.
  intro w. rewrite reset_eq. destruct (first_shape pin w) as (e1 & T1 & U1 & R1). unfold mbind.
  destruct (reset_first pin w) as [[b|e] w1|w1]; cbn [last_of] in *; [|exists e1; auto..].
  destruct (middle_np w1) as (e2 & T2 & F2). apply np_asked in F2. destruct (reset_middle w1) as [[[]|e] w2|w2]; cbn [last_of] in *;
    [|exists (e1 ++ e2); rewrite T2, T1, app_assoc, asked_app; split; [auto|split; [apply use_right; auto|auto]]..].
  destruct b.
  - exists (e1 ++ e2). cbn [last_of ret]. rewrite T2, T1, app_assoc, asked_app. split; auto. split; [apply use_right; auto|]. unfold ret. apply unlocked_app; auto.
  - destruct (unlock_unlocks pin w2) as (e3 & T3 & U3 & R3). exists (e1 ++ e2 ++ e3). rewrite T3, T2, T1, <- !app_assoc, !asked_app. split; auto.
    split; [apply use_left; [auto|apply use_left; auto]|]. destruct (unlockSim pin w2) as [[x|e] w4|w4]; auto. apply unlocked_app. right. apply unlocked_app. auto.
Qed.
Definition connect_rest : M unit :=
  do commands <- supportedCommands;
  do hint <- connect_hint commands;
  connect_table commands hint ;;;
  write_noparse (lit "AT+COPS=3,0") ;;;
  connect_sms ;;;
  connect_memory ;;;
  connect_notifications.
Lemma rest_nc : nc_ok connect_rest.
Proof.
  apply only_bind; [apply nc_commands|intro c]. apply only_bind; [apply nc_hint|intro h]. apply only_bind; [apply nc_table|intro].
  apply only_bind; [unfold write_noparse; nc|intro]. apply only_bind; [apply nc_sms|intro]. apply only_bind; [apply nc_memory|intro]. apply nc_notifications.
Qed.
Lemma connect_unlocks pin : unlocks pin (connect pin).
Proof.
  unfold connect. apply result_np; [intros; apply unlocked_app; auto|unfold np_ok; only_tac|intros _].
  apply (result_rest pin (connect_reset pin) (fun _ => connect_rest)); [intros; apply unlocked_app; auto|apply reset_unlocks|intros _]. apply nc_np, rest_nc.
Qed.

(** ** Without a PIN *)
(** a locked SIM: the query is answered, not with READY *)
Definition refuses {A} (c : M A) : Prop := forall w, exists evs, trace (last_of (c w)) = trace w ++ evs /\
  forall rq ls, In (pin_query, Some rq) (asked evs) -> rq = Lines ls -> good_answer ls -> ~ sim_ready rq ->
    exists w', c w = Done (Err (PinRequiredError (lit "AT+CPIN") 11)) w'.
Lemma not_asked evs rq : Forall not_cpin evs -> ~ In (pin_query, Some rq) (asked evs).
Proof.
  intros F I. unfold asked in I. apply in_flat_map in I as ([t r|t|x|x|o|o] & I & J); cbn in J; try contradiction. destruct J as [J|[]]. injection J as -> ->.
  rewrite Forall_forall in F. apply (F _ I). exists [63; 13]. reflexivity.
Qed.
Lemma refuses_left {A B} (c : M A) (k : A -> M B) : nc_ok c -> (forall x, refuses (k x)) -> refuses (mbind c k).
Proof.
  intros H1 H2 w. destruct (H1 w) as (e1 & T1 & F1). unfold mbind.
  destruct (c w) as [[a|e] w1|w1]; cbn [last_of] in *; [|exists e1; split; [auto|intros rq ls I; destruct (not_asked _ _ F1 I)]..].
  destruct (H2 a w1) as (e2 & T2 & U). exists (e1 ++ e2). rewrite T2, T1, app_assoc, asked_app. split; auto. intros rq ls I.
  apply in_app_or in I as [I|I]; [destruct (not_asked _ _ F1 I)|]. eauto.
Qed.
Lemma refuses_right {A B} (c : M A) (k : A -> M B) : refuses c -> (forall x, nc_ok (k x)) -> refuses (mbind c k).
Proof.
  intros H1 H2 w. destruct (H1 w) as (e1 & T1 & U). unfold mbind.
  destruct (c w) as [[a|e] w1|w1] eqn:E; cbn [last_of] in *.
  - destruct (H2 a w1) as (e2 & T2 & F2). exists (e1 ++ e2). rewrite T2, T1, app_assoc, asked_app. split; auto. intros rq ls I E1 G N.
    apply in_app_or in I as [I|I]; [|destruct (not_asked _ _ F2 I)]. destruct (U _ _ I E1 G N) as (w' & D). discriminate.
  - exists e1. split; auto. intros rq ls I E1 G N. destruct (U _ _ I E1 G N) as (w' & D). injection D as -> ->. eauto.
  - exists e1. split; auto. intros rq ls I E1 G N. destruct (U _ _ I E1 G N) as (w' & D). discriminate.
Qed.
Lemma unlock_refuses : refuses (unlockSim None).
Proof.
  intro w. rewrite unlock_eq. unfold mbind. destruct (write_asked (lit "AT+CPIN?") CR w) as (evs & sent & T & A & B & R).
  destruct (query_np w) as (e1 & T1 & _). exists evs.
  assert (G : forall ls, good_answer ls -> ~ is_busy (Lines ls)).
  { intros ls (l0 & l & -> & G) (code & H). exact (good_not_busy _ _ G _ H). }
  assert (TQ : trace (last_of (cpin_query w)) = trace (last_of (write_with (lit "AT+CPIN?") CR true w))).
  { unfold cpin_query, try_except, mbind, write. destruct (write_with (lit "AT+CPIN?") CR true w) as [[ls|e] w1|w1]; auto.
    destruct e; auto. destruct data; auto. destruct (lineStartingWith _ l); auto. }
  assert (TC : forall y w1, trace (last_of ((if opt_str_eqb y (Some (lit "+CPIN: READY")) then ret tt else raise (PinRequiredError (lit "AT+CPIN") 11)) w1)) = trace w1) by (intros; destruct (opt_str_eqb _ _); auto).
  split.
  { destruct (cpin_query w) as [[y|e] w1|w1]; cbn [last_of] in *; rewrite ?TC; congruence. }
  intros rq ls I -> G0 N. rewrite A in I. apply in_map_iff in I as (r & E & I). injection E as ->.
  destruct (write_with (lit "AT+CPIN?") CR true w) as [x w1|w1] eqn:W.
  - destruct R as (busy & r & -> & O). apply in_app_or in I as [I|[->|[]]].
    + rewrite removelast_last in B. rewrite Forall_forall in B. destruct (G _ G0 (B _ I)).
    + assert (x = Ok ls) as -> by (eapply outcome_fun; [exact O|apply good_outcome; auto]).
      destruct (cpin_query w) as [[y|e] w2|w2] eqn:Q.
      * pose proof Q as Q0. apply query_reply in Q0 as (qs & rq & T2 & _ & (before & A2) & R2). 
        unfold cpin_query, try_except, mbind, write in Q. rewrite W in Q. cbn [ret] in Q. injection Q as <- <-. cbn [last_of] in *.
        rewrite T in T2. apply app_inv_head in T2 as <-. rewrite A, map_app in A2. cbn in A2. apply app_inj_tail in A2 as [_ A2]. injection A2 as <-.
        destruct (opt_str_eqb _ _) eqn:E; [exfalso; apply N, R2, ready_eqb; auto|]. unfold raise. eauto.
      * unfold cpin_query, try_except, mbind, write in Q. rewrite W in Q. discriminate Q.
      * unfold cpin_query, try_except, mbind, write in Q. rewrite W in Q. discriminate Q.
  - rewrite Forall_forall in R. destruct (G _ G0 (R _ I)).
Qed.
Lemma first_refuses : refuses (reset_first None).
Proof.
  intro w. unfold reset_first, try_except.
  assert (N : nc_ok (write (lit "ATZ") ;;; ret false)) by nc_tac. destruct (N w) as (e1 & T1 & F1).
  destruct ((write (lit "ATZ") ;;; ret false) w) as [[b|e] w1|w1] eqn:W; cbn [last_of] in *.
  - exists e1. split; auto. intros rq ls I. destruct (not_asked _ _ F1 I).
  - unfold on_CommandError. destruct (is_CommandError e); cbn [last_of]; [|exists e1; split; [auto|intros rq ls I; destruct (not_asked _ _ F1 I)]].
    assert (U : refuses (write_noparse (lit "AT+CMEE=1") ;;; unlockSim None ;;; write (lit "ATZ") ;;; ret true)).
    { apply refuses_left; [unfold write_noparse; nc|intros _]. apply refuses_right; [apply unlock_refuses|intros _]. nc_tac. }
    destruct (U w1) as (e2 & T2 & U2). exists (e1 ++ e2). rewrite T2, T1, app_assoc, asked_app. split; auto. intros rq ls I.
    apply in_app_or in I as [I|I]; [destruct (not_asked _ _ F1 I)|eauto].
  - exists e1. split; [auto|intros rq ls I; destruct (not_asked _ _ F1 I)].
Qed.
Lemma reset_refuses : refuses (connect_reset None).
Proof.
  intro w. rewrite reset_eq. destruct (first_refuses w) as (e1 & T1 & U1). unfold mbind.
  destruct (reset_first None w) as [[b|e] w1|w1] eqn:E; cbn [last_of] in *.
  - assert (K : refuses (reset_middle ;;; if b then ret tt else unlockSim None)).
    { apply refuses_left; [apply middle_nc|intros _]. destruct b; [|apply unlock_refuses]. intro w2. exists []. rewrite app_nil_r. split; auto. intros rq ls []. }
    destruct (K w1) as (e2 & T2 & U2). exists (e1 ++ e2). unfold mbind in *. rewrite T2, T1, app_assoc, asked_app. split; auto. intros rq ls I E1 G N.
    apply in_app_or in I as [I|I]; [|eauto]. destruct (U1 _ _ I E1 G N) as (w' & D). discriminate.
  - exists e1. split; auto. intros rq ls I E1 G N. destruct (U1 _ _ I E1 G N) as (w' & D). injection D as -> ->. eauto.
  - exists e1. split; auto. intros rq ls I E1 G N. destruct (U1 _ _ I E1 G N) as (w' & D). discriminate.
Qed.
Lemma connect_refuses : refuses (connect None).
Proof.
  unfold connect. apply refuses_left; [unfold nc_ok; only_tac|intros _].
  apply (refuses_right (connect_reset None) (fun _ => connect_rest)); [apply reset_refuses|intros _; apply rest_nc].
Qed.
Lemma connect_no_pin m sc ls : let w := last_of (connect None (start m sc)) in
  In (pin_query, Some (Lines ls)) (asked (trace w)) -> good_answer ls -> ~ sim_ready (Lines ls) ->
  connect None (start m sc) = Done (Err (PinRequiredError (lit "AT+CPIN") 11)) w.
Proof.
  cbv zeta. intros I G N. destruct (connect_refuses (start m sc)) as (evs & T & U). cbn [start trace app] in T. rewrite T in I.
  destruct (U _ _ I eq_refl G N) as (w' & D). rewrite D. reflexivity.
Qed.
Lemma connect_pin pin m sc : pin_use pin (asked (trace (last_of (connect pin (start m sc))))).
Proof. destruct (connect_unlocks pin (start m sc)) as (evs & -> & U & _). exact U. Qed.
Lemma connect_ok pin m sc w : connect pin (start m sc) = Done (Ok tt) w -> unlocked pin (asked (trace w)).
Proof. intro H. destruct (connect_unlocks pin (start m sc)) as (evs & T & _ & U). rewrite H in T, U. cbn in T. rewrite T. exact U. Qed.
