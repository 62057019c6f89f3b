(** Proofs about notifications that arrive together: what is done with them. *)
From Verif Require Import Base RegexModel RegexProofs UtilModel TrieProofs ModemCore ModemSpec WriteProofs MonadProofs SmsModel SendSpec SendProofs TrackSpec CoverageSpec StoreSpec ReadProofs StoreProofs ListSpec ListProofs
  ProcessProofs CallModel UssdModel NotifyModel BookSpec CallFinal SpoofRead BatchSpec.

Definition at_most {A} (k : nat) (c : M A) : Prop := forall w, exists evs, trace (last_of (c w)) = trace w ++ evs /\ (length (told evs) <= k)%nat.
Lemma told_app a b : told (a ++ b) = told a ++ told b.
Proof. apply filter_app. Qed.
Lemma at_most_nil {A} k (c : M A) : (forall w, trace (last_of (c w)) = trace w) -> at_most k c.
Proof. intros H w. exists []. rewrite H, app_nil_r. cbn. split; auto. lia. Qed.
Lemma at_most_bind {A B} j k (c : M A) (f : A -> M B) : at_most j c -> (forall x, at_most k (f x)) -> at_most (j + k) (mbind c f).
Proof.
  intros H1 H2 w. destruct (H1 w) as (e1 & T1 & P1). unfold mbind. destruct (c w) as [[a|e] w1|w1]; cbn [last_of] in *; [|exists e1; split; auto; lia|exists e1; split; auto; lia].
  destruct (H2 a w1) as (e2 & T2 & P2). exists (e1 ++ e2). rewrite T2, T1, app_assoc, told_app, app_length. split; auto. lia.
Qed.
Lemma at_most_first {A B} k (c : M A) (f : A -> M B) : at_most k c -> (forall x, at_most 0 (f x)) -> at_most k (mbind c f).
Proof. intros H1 H2. rewrite <- (Nat.add_0_r k). apply at_most_bind; auto. Qed.
Lemma at_most_then {A B} k (c : M A) (f : A -> M B) : at_most 0 c -> (forall x, at_most k (f x)) -> at_most k (mbind c f).
Proof. intros H1 H2. apply (at_most_bind 0 k); auto. Qed.
Lemma at_most_tell k e : at_most (S k) (tell e).
Proof. intro w. exists [e]. split; [reflexivity|]. cbn. destruct e; cbn; lia. Qed.
Lemma told_attempts text busy r : forall wait, told (attempts text wait busy r) = [].
Proof.
  assert (Pp : forall w, told (pause w) = []) by (intro w; unfold pause; destruct (0 <? w); auto).
  induction busy as [|c busy IH]; intro wait; cbn [attempts].
  - change (told (match r with Lines _ => pause wait | NoReply _ => [] end) = []). destruct r; auto.
  - change (told (pause wait ++ ESleep (wait + 2) :: attempts text (wait + 2) busy r) = []). rewrite told_app, Pp. apply (IH (wait + 2)).
Qed.
Lemma at_most_write k data : at_most k (write data).
Proof.
  intro w. destruct (write data w) as [x w1|w1] eqn:E; cbn [last_of].
  - apply exchange_of in E as (evs & T & wait & busy & codes & r & E & _). exists evs. split; auto. subst evs. rewrite told_attempts. cbn. lia.
  - apply stuck_exchange in E as (evs & T & (wait & busy & codes & r & E & _)). exists evs. split; auto.
    pose proof (told_attempts (data ++ CR) busy r wait) as P. rewrite <- E, told_app in P. apply app_eq_nil in P as [P _]. rewrite P. cbn. lia.
Qed.
Lemma at_most_try {A} k (c : M A) h : at_most 0 c -> (forall e k', h e = Some k' -> at_most k k') -> at_most k (try_except c h).
Proof.
  intros H1 H2 w. destruct (H1 w) as (e1 & T1 & P1). unfold try_except. destruct (c w) as [[a|e] w1|w1]; cbn [last_of] in *; try (exists e1; split; auto; lia).
  destruct (h e) as [k'|] eqn:E; [|exists e1; split; auto; lia]. destruct (H2 e k' E w1) as (e2 & T2 & P2). exists (e1 ++ e2). rewrite T2, T1, app_assoc, told_app, app_length. split; auto. lia.
Qed.
Ltac mute_tac := repeat first [ apply at_most_write | apply at_most_then; [|intros ?] | apply at_most_nil; intro; reflexivity
  | match goal with |- at_most _ (if ?b then _ else _) => destruct b end | match goal with |- at_most _ (match ?b with _ => _ end) => destruct b end ].
Lemma mute_select a b : at_most 0 (setSmsMemory a b).
Proof. unfold setSmsMemory. mute_tac. Qed.
Lemma mute_delete i mem : at_most 0 (deleteStoredSms i mem).
Proof. unfold deleteStoredSms. apply at_most_then; [apply mute_select|intros _]. mute_tac. Qed.
Lemma mute_read i mem : at_most 0 (readStoredSms i mem).
Proof. unfold readStoredSms. apply at_most_then; [apply mute_select|intros _]. mute_tac. Qed.
Lemma one_received line : at_most 1 (handleSmsReceived line).
Proof.
  unfold handleSmsReceived. destruct (re_match _ _); [|mute_tac]. apply at_most_then; [apply mute_read|intro s]. apply at_most_then; [apply mute_delete|intros _]. apply at_most_tell.
Qed.
Lemma one_report line : at_most 1 (handleSmsStatusReport line).
Proof.
  unfold handleSmsStatusReport. destruct (re_match _ _); [|mute_tac]. apply at_most_then; [apply mute_read|intro s]. apply at_most_then; [apply mute_delete|intros _].
  destruct s; [mute_tac|]. apply at_most_then; [mute_tac|intro m]. apply at_most_then; [mute_tac|intros _]. apply at_most_then; [mute_tac|intro m']. destruct (reportEvent m'); [mute_tac|]. apply at_most_tell.
Qed.
Lemma one_ussd lines : at_most 1 (handleUssd lines).
Proof. unfold handleUssd. mute_tac. Qed.
Lemma mute_rings es number : forall found, at_most 0 (ring_each es number found).
Proof.
  induction es as [|[i n] es IH]; intro found; cbn [ring_each]; [mute_tac|]. apply at_most_then; [mute_tac|intro m]. destruct (opt_str_eqb _ _); auto. destruct (c_incoming _); [|mute_tac].
  apply at_most_then; auto. mute_tac.
Qed.
Lemma one_call lines : at_most 1 (handleIncomingCall lines).
Proof.
  unfold handleIncomingCall. destruct lines as [|ring lines]; [mute_tac|]. apply at_most_then; [mute_tac|intro m]. apply at_most_then.
  { destruct (crc m); [|mute_tac]. destruct (after_space ring); [mute_tac|]. apply at_most_try; [mute_tac|]. intros e k' E. destruct (is_CommandError e); [|discriminate]. injection E as <-. mute_tac. }
  intro ty. apply at_most_then; [mute_tac|intro m']. apply at_most_then; [apply mute_rings|intro found]. apply at_most_then; [|intro n; apply at_most_tell].
  destruct found; [mute_tac|]. apply at_most_then; [mute_tac|intro m'']. apply at_most_then; [mute_tac|intro c]. unfold add_call. mute_tac.
Qed.
Lemma one_answered n b : at_most 1 (set_answered n b).
Proof. unfold set_answered. apply at_most_then; [mute_tac|intros _]. apply at_most_then; [mute_tac|intro m]. destruct (c_callback _); [apply at_most_tell|mute_tac]. Qed.
Lemma mute_int g k : at_most 0 (int_of g k).
Proof. unfold int_of. mute_tac. Qed.
Lemma one_initiated g i t : at_most 1 (handleCallInitiated g i t).
Proof.
  unfold handleCallInitiated. apply at_most_then; [mute_tac|intro m]. destruct (dialEvent m); [|mute_tac]. apply at_most_then; [|intros _; mute_tac].
  destruct g as [g|]; [|mute_tac]. apply at_most_then; [apply mute_int|intro id]. apply at_most_then; [|intro ty; mute_tac]. destruct g as [|? [|? ?]]; first [apply mute_int|mute_tac].
Qed.
Lemma one_by_id i : at_most 1 (answered_by_id i).
Proof. unfold answered_by_id. apply at_most_then; [mute_tac|intro m]. destruct (zget _ _); [apply one_answered|mute_tac]. Qed.
Lemma one_picked g i : at_most 1 (handleCallAnswered g i).
Proof.
  unfold handleCallAnswered. assert (O : at_most 1 (do m <- get; match find_call m (fun c => negb (c_answered c) && negb (c_incoming c)) with Some n => set_answered n true | None => ret tt end)).
  { apply at_most_then; [mute_tac|intro m]. destruct (find_call _ _); [apply one_answered|mute_tac]. }
  destruct g as [[|? [|? ?]]|]; auto; [|apply one_by_id]. apply at_most_then; [apply mute_int|intro id; apply one_by_id].
Qed.
Lemma one_ended g i f : at_most 1 (handleCallEnded g i f).
Proof.
  unfold handleCallEnded. apply at_most_then.
  { destruct g as [[|? ?]|]; [|apply at_most_then; [apply mute_int|intro; mute_tac]|mute_tac]. apply at_most_then; [mute_tac|intro m]. mute_tac. }
  intros [id|]; [|mute_tac]. destruct (id =? 0); [mute_tac|]. apply at_most_then; [mute_tac|intro m]. destruct (zget _ _); [|mute_tac].
  apply at_most_first; [apply one_answered|intros _]. mute_tac.
Qed.
Lemma one_update t line h : try_updates (call_updates t) line = Some h -> at_most 1 h.
Proof.
  assert (H : forall ups, Forall (fun u : re * (list str -> M unit) => forall g, at_most 1 (snd u g)) ups -> try_updates ups line = Some h -> at_most 1 h).
  { induction 1 as [|[r k] ups K _ IH]; cbn [try_updates]; [discriminate|]. destruct (re_match r line); auto. intros [= <-]. apply K. }
  apply H. destruct t; repeat constructor; cbn [snd]; intro g; try apply one_initiated; try apply one_picked; try apply one_ended.
Qed.
Theorem at_most_one lines : at_most 1 (handleNotification lines).
Proof.
  unfold handleNotification. generalize lines at 1. intro all. induction lines as [|line rest IH]; cbn [notify_each]; [mute_tac|].
  destruct (contains _ _); [apply one_call|]. destruct (startswith _ _); [apply one_received|]. destruct (startswith _ _); [apply one_ussd|]. destruct (startswith _ _); [apply one_report|].
  apply at_most_then; [mute_tac|intro m]. destruct (try_updates _ line) as [h|] eqn:E; auto. eapply one_update; eauto.
Qed.

(** what follows does not matter *)
Theorem rest_ignored before line after w : Forall (unrelated (callUpdates (dev w))) before -> ~ ModemSpec.substring (lit "RING") line ->
  (exists s, line = lit "+CMTI" ++ s \/ line = lit "+CDSI" ++ s) \/ (exists n, call_news (callUpdates (dev w)) line n) ->
  handleNotification (before ++ line :: after) w = handleNotification [line] w.
Proof.
  intros F NR [L|[n N]]; [apply taken_for_notice; auto|]. unfold handleNotification. rewrite unrelated_skip by auto. generalize (before ++ line :: after). intro lines. cbn [notify_each].
  destruct (contains line (lit "RING")) eqn:E1; [apply contains_iff in E1; contradiction|]. destruct (CallProofs.news_not_stored _ _ _ N) as (-> & -> & ->).
  unfold mbind, get. pose proof (CallProofs.news_spec (callUpdates (dev w)) line) as S. destruct (try_updates _ line); auto. destruct (S _ N).
Qed.
Theorem one_of_two before line1 mid line2 after m d mem ds mem2 ds2 sc x w d' : in_sync m d -> Forall (unrelated (callUpdates m)) before ->
  indication (lit "+CMTI:") mem ds line1 -> ~ ModemSpec.substring (lit "RING") line1 -> indication (lit "+CMTI:") mem2 ds2 line2 ->
  (mem2, dec_value ds2) <> (mem, dec_value ds) ->
  handleNotification (before ++ line1 :: mid ++ line2 :: after) (start m sc) = Done x w -> plays d (trace w) d' ->
  match x with
  | Ok _ => exists s content, passed (trace w) = [s] /\ stored d mem (dec_value ds) = Some content /\ handed_as (smsTextMode m) content s /\ stored d' mem (dec_value ds) = None
  | Err _ => passed (trace w) = []
  end /\ stored d' mem2 (dec_value ds2) = stored d mem2 (dec_value ds2).
Proof.
  intros Sy F I1 NR I2 D H Pl. assert (L : exists s, line1 = lit "+CMTI" ++ s \/ line1 = lit "+CDSI" ++ s).
  { destruct I1 as (sp & nl & -> & _). eexists. left. change (lit "+CMTI:") with (lit "+CMTI" ++ lit ":"). rewrite <- app_assoc. reflexivity. }
  rewrite taken_for_notice in H by auto. unfold handleNotification in H. cbn [notify_each] in H.
  destruct (contains line1 (lit "RING")) eqn:E; [apply contains_iff in E; contradiction|].
  assert (E2 : startswith line1 (lit "+CMTI") = true). { apply startswith_app. destruct I1 as (sp & nl & -> & _). change (lit "+CMTI:") with (lit "+CMTI" ++ lit ":"). rewrite <- app_assoc. eauto. }
  rewrite E2 in H. destruct (notification m d mem ds line1 sc x w d' Sy I1 H Pl) as (_ & _ & N). unfold notified in N. destruct x as [u|e].
  - destruct N as (s & content & evs & T & Pe & _ & St & Ha & Pu). split.
    + exists s, content. rewrite T, passed_app, Pe. repeat (split; [solve [auto]|]). rewrite Pu. unfold put, same_cell. destruct (str_eqb_spec mem mem); [|contradiction]. rewrite Z.eqb_refl. reflexivity.
    + rewrite Pu. unfold put, same_cell. destruct (str_eqb_spec mem2 mem) as [->|]; auto. destruct (Z.eqb_spec (dec_value ds2) (dec_value ds)) as [Q|]; auto. destruct D. rewrite Q. reflexivity.
  - destruct N as (N1 & N2 & _). auto.
Qed.
