(** Proofs about calls whose end is not noticed. *)
From Verif Require Import Base RegexModel RegexProofs UtilModel UtilSpec UtilProofs ModemCore ModemSpec WriteProofs MonadProofs PollProofs SmsModel SendSpec SendProofs LangProofs CoverageSpec CoverageProofs CentreProofs ReadProofs QueryProofs
  ModemFinal TrackSpec TrackProofs CallModel NotifyModel PollModel PollSpec BookSpec BookProofs CallProofs CallFinal DialSpec DialProofs RingProofs StaleSpec.

Lemma flags_alive l l' n c c' : flags l l' -> nth_error l n = Some c -> nth_error l' n = Some c' -> c_active c' = c_active c.
Proof. intros (_ & F) H H'. destruct (F _ _ H) as (c1 & E & _ & A). congruence. Qed.
Lemma at_other n f l l' k : at_call n f l l' -> k <> n -> nth_error l' k = nth_error l k.
Proof. intros (_ & H & _). auto. Qed.
Lemma ends_call_ends id b b' n c c' : ends_call id b b' -> nth_error (b_calls b) n = Some c -> nth_error (b_calls b') n = Some c' -> c_active c = true -> c_active c' = false -> In (id, n) (b_table b).
Proof.
  intros E H H' A A'. inversion E as [X|k calls table N0 I At W]; subst; [congruence|]. cbn in H'. destruct (Nat.eq_dec n k) as [->|N]; auto.
  rewrite (at_other _ _ _ _ _ At N) in H'. congruence.
Qed.
Lemma report_ends b r x b' n c c' : takes_report b r x b' -> nth_error (b_calls b) n = Some c -> nth_error (b_calls b') n = Some c' -> c_active c = true -> c_active c' = false ->
  exists id, (r = CallEnded (Some id) \/ r = Rejected (Some id)) /\ In (id, n) (b_table b).
Proof.
  intros T H H' A A'. inversion T as [| |id k calls I At| |id b1 E|id b1 E| |]; subst; cbn in H'; try congruence.
  - destruct At as (A1 & A2 & _). destruct (Nat.eq_dec n k) as [->|N]; [rewrite (A1 _ H) in H'; injection H' as <-; cbn in A'; congruence|rewrite A2 in H' by auto; congruence].
  - exists id. split; auto. eapply ends_call_ends; eauto.
  - exists id. split; auto. eapply ends_call_ends; eauto.
Qed.
Lemma sound_id b id n c : sound_book b -> In (id, n) (b_table b) -> nth_error (b_calls b) n = Some c -> c_id c = id.
Proof. intros (_ & S) I H. destruct (S _ _ I) as (c1 & E & Id & _). congruence. Qed.
Lemma news_ends b n1 x b' n c c' : sound_book b -> takes_news b n1 x b' -> nth_error (b_calls b) n = Some c -> nth_error (b_calls b') n = Some c' -> c_active c = true -> c_active c' = false ->
  In (c_id c, n) (b_table b) /\ (n1 = News (CallEnded (Some (c_id c))) \/ n1 = News (Rejected (Some (c_id c))) \/ n1 = SomeRejected /\ first_unanswered b (Some (c_id c, n))).
Proof.
  intros Sd T H H' A A'. inversion T as [r x1 b1 R|id k x1 b1 F R|id k x1 b1 F R|w F W]; subst.
  - destruct (report_ends _ _ _ _ _ _ _ R H H' A A') as (id & E & I). rewrite (sound_id _ _ _ _ Sd I H). split; auto. destruct E as [->| ->]; auto.
  - destruct (report_ends _ _ _ _ _ _ _ R H H' A A') as (id' & [E|E] & I); discriminate.
  - destruct (report_ends _ _ _ _ _ _ _ R H H' A A') as (id' & [E|E] & I); [injection E as <-|discriminate]. rewrite (sound_id _ _ _ _ Sd I H). split; auto. right. right. split; auto.
    inversion F as [t1 i j t2 Et Un Fa|]; subst. replace n with k; auto. destruct Sd as (Nd & _). assert (I' : In (id, k) (b_table b)) by (rewrite Et; apply in_or_app; right; left; auto).
    unfold ids in Nd. clear - Nd I I'. induction (b_table b) as [|[a e] t IH]; [destruct I|]. inversion Nd as [|? ? Ni Nd']; subst. destruct I as [E|I]; destruct I' as [E'|I'].
    + congruence.
    + injection E as -> ->. exfalso. apply Ni. apply (in_map fst) in I'. auto.
    + injection E' as -> ->. exfalso. apply Ni. apply (in_map fst) in I. auto.
    + auto.
  - congruence.
Qed.
Lemma not_rejected_news t line id : ~ call_news t line (News (Rejected id)).
Proof. intro H. inversion H. Qed.

Definition ended (m m' : modem) (n : nat) : Prop := exists c c', nth_error (callObjs m) n = Some c /\ nth_error (callObjs m') n = Some c' /\ c_active c = true /\ c_active c' = false.
Lemma keeps_alive {A} (c : M A) w n : keeps calls_of c -> ~ ended (dev w) (dev (last_of (c w))) n.
Proof. intros K (a & b & H & H' & A1 & A2). specialize (K w). unfold calls_of in K. injection K as K _. rewrite K in H'. congruence. Qed.
(** operations that end no call *)
Definition grows (m m' : modem) : Prop := forall n c, nth_error (callObjs m) n = Some c -> exists c', nth_error (callObjs m') n = Some c' /\ c_active c' = c_active c.
Lemma grows_not m m' n : grows m m' -> ~ ended m m' n.
Proof. intros G (c & c' & H & H' & A & A'). destruct (G _ _ H) as (c1 & E & X). congruence. Qed.
Lemma grows_keeps m m' : calls_of m' = calls_of m -> grows m m'.
Proof. intro E. injection E as E _. intros n c H. exists c. rewrite E. auto. Qed.
Lemma grows_flags m m' : flags (callObjs m) (callObjs m') -> grows m m'.
Proof. intros (_ & F) n c H. destruct (F _ _ H) as (c' & E & _ & A). eauto. Qed.
Lemma grows_add c m w : calls_of (dev w) = calls_of m -> grows m (dev (last_of (add_call c w))).
Proof.
  intro E. injection E as E _. intros n a H. exists a. split; auto.
  change (nth_error (callObjs (dev w) ++ [c]) n = Some a). rewrite E. rewrite nth_error_app1; auto. apply nth_error_Some. congruence.
Qed.
Lemma grows_dial number cb w : grows (dev w) (dev (last_of (ignoring (dial_start number cb) w))).
Proof.
  unfold ignoring, dial_start, mbind at 1, mbind at 1, get. cbn beta iota. destruct (waitInit (dev w)) eqn:E.
  - apply grows_keeps.
    match goal with |- calls_of (dev (last_of (match ?c w with _ => _ end))) = _ => set (c0 := c) end.
    assert (K : keeps calls_of c0). { unfold c0. keeps_all; try apply keeps_atd. }
    specialize (K w). destruct (c0 w) as [[?|?] w1|w1]; auto.
  - pose proof (keeps_atd number w) as K. unfold mbind at 1. destruct (atd number w) as [[[]|e] w1|w1]; cbn [last_of] in *; try (apply grows_keeps; exact K).
    unfold mbind at 1, get. unfold mbind at 1. set (c := new_call _ _ _ _).
    pose proof (grows_add c (dev w) w1 K) as H. destruct (add_call c w1) as [[?|?] w2|w2]; auto.
Qed.
Lemma grows_dial_end number cb w : grows (dev w) (dev (last_of (ignoring (dial_finish number cb) w))).
Proof.
  unfold ignoring, dial_finish, mbind at 1, mbind at 1, get. cbn beta iota. destruct (dialEvent (dev w)) as [[|]|].
  - unfold mbind at 1, modify. destruct (dialResponse (dev w)) as [[id ty]|]; [|apply grows_keeps; auto].
    set (c := new_call _ _ _ _). set (w1 := mk_world _ _ _). assert (H : grows (dev w) (dev (last_of (add_call c w1)))) by (apply grows_add; auto).
    destruct (add_call c w1) as [[?|?] w2|w2]; auto.
  - unfold mbind at 1, modify. cbn. apply grows_keeps; auto.
  - cbn. apply grows_keeps; auto.
Qed.
Lemma grows_answer n w : grows (dev w) (dev (last_of (answer n w))).
Proof.
  unfold answer, mbind at 1, get. destruct (c_ringing _); [|apply grows_keeps; auto].
  unfold mbind at 1. pose proof (keeps_write calls_of (lit "ATA") CR true (fun _ _ => eq_refl) w) as K. unfold write. destruct (write_with _ _ _ w) as [[ls|e] w1|w1]; cbn [last_of] in *; try (apply grows_keeps; exact K).
  injection K as K1 K2. unfold mbind at 1, change_call, modify. set (w2 := mk_world _ _ _). destruct (set_answered_run n true w2) as (tr & E & _). rewrite E. cbn [last_of dev].
  apply grows_flags. cbn. rewrite <- K1. eapply flags_trans; apply flags_update; intro c; split; auto.
Qed.
Lemma grows_incoming lines w : grows (dev w) (dev (last_of (handleIncomingCall lines w))).
Proof.
  destruct lines as [|ring lines]; [apply grows_keeps; auto|]. cbn [handleIncomingCall]. unfold mbind at 1, get. cbn beta iota. unfold mbind at 1.
  match goal with |- context [match ?c w with _ => _ end] => assert (K : keeps calls_of c) by keeps_all; specialize (K w); destruct (c w) as [[ty|e] w1|w1] end; cbn [last_of] in K; try (apply grows_keeps; exact K).
  unfold mbind at 1. cbn beta iota. set (number := match lines with [] => None | _ => _ end). unfold mbind at 1.
  destruct (ring_flags (activeCalls (dev w1)) number None w1) as [H1 H2]. injection K as K1 K2.
  assert (G : grows (dev w) (dev (last_of (ring_each (activeCalls (dev w1)) number None w1)))). { apply grows_flags. rewrite <- K1; auto. }
  destruct (ring_each (activeCalls (dev w1)) number None w1) as [[[n|]|e] w2|w2] eqn:R; cbn [last_of] in *; auto.
  apply ring_new in R as ->. unfold mbind at 1. unfold mbind at 1. unfold mbind at 1, lift. cbn beta iota. destruct (new_incoming _ _ _) as [c|e] eqn:N; auto.
  assert (C : grows (dev w) (dev (last_of (add_call c w1)))). { apply grows_add. unfold calls_of; congruence. }
  destruct (add_call c w1) as [[k|e] w2|w2]; auto.
Qed.

(** what ends a call *)
Definition ends_it (m : modem) (o : call_op) (m' : modem) (n : nat) : Prop :=
  forall c c', nth_error (callObjs m) n = Some c -> nth_error (callObjs m') n = Some c' -> c_active c = true -> c_active c' = false -> ends_by (callUpdates m) (book_of m) n (c_id c) o.
Lemma not_ended m o m' n : ~ ended m m' n -> ends_it m o m' n.
Proof. intros N c c' H H' A A'. exfalso. apply N. exists c, c'. auto. Qed.
Lemma kept_alive {A} (c : M A) o w n : keeps calls_of c -> ends_it (dev w) o (dev (last_of (c w))) n.
Proof. intro K. apply not_ended, keeps_alive; auto. Qed.
Lemma notified_ends lines n w : sound_book (book_of (dev w)) -> forall rest before, lines = before ++ rest -> Forall (unrelated (callUpdates (dev w))) before ->
  ends_it (dev w) (Notification lines) (dev (last_of (notify_each lines rest w))) n.
Proof.
  intro Sd. induction rest as [|line rest IH]; intros before E F; cbn [notify_each]; [apply not_ended; intros (c & c' & H & H' & A & A'); cbn in *; congruence|].
  destruct (contains line (lit "RING")) eqn:C1; [apply not_ended, grows_not, grows_incoming|]. destruct (startswith line (lit "+CMTI")) eqn:C2; [apply kept_alive, keeps_received|].
  destruct (startswith line (lit "+CUSD")) eqn:C3; [apply kept_alive, keeps_ussd|]. destruct (startswith line (lit "+CDSI")) eqn:C4; [apply kept_alive, keeps_report|].
  unfold mbind, get. pose proof (news_spec (callUpdates (dev w)) line) as S. destruct (try_updates _ line) as [k|].
  - destruct S as (n1 & N & A). destruct (A w Sd) as (x & w' & evs & R & T & _). rewrite R. cbn [last_of]. intros c c' H H' Ac Ac'.
    destruct (news_ends _ _ _ _ _ _ _ Sd T H H' Ac Ac') as (I & [->|[->|[-> Fu]]]).
    + rewrite E. apply eb_told; auto.
    + destruct (not_rejected_news _ _ _ N).
    + rewrite E. eapply eb_refused; eauto.
  - apply (IH (before ++ [line])); [rewrite <- app_assoc; auto|]. apply Forall_app. split; auto. constructor; auto. repeat split.
    + intro X. apply contains_iff in X. congruence.
    + intros ->. assert (X : startswith (lit "+CMTI" ++ s) (lit "+CMTI") = true) by (apply startswith_app; eauto). congruence.
    + intros ->. assert (X : startswith (lit "+CUSD" ++ s) (lit "+CUSD") = true) by (apply startswith_app; eauto). congruence.
    + intros ->. assert (X : startswith (lit "+CDSI" ++ s) (lit "+CDSI") = true) by (apply startswith_app; eauto). congruence.
    + exact S.
Qed.
Definition call_at (n : nat) (m : modem) : option call := nth_error (callObjs m) n.
Lemma keeps_change k n f : n <> k -> keeps (call_at n) (change_call k f).
Proof. intros N w. unfold change_call, modify, call_at. cbn. rewrite update_nth. destruct (Nat.eqb_spec k n); auto. congruence. Qed.
Lemma hangup_other k n w : n <> k -> nth_error (callObjs (dev (last_of (hangup k w)))) n = nth_error (callObjs (dev w)) n.
Proof.
  intro N. assert (K : keeps (call_at n) (hangup k)). { unfold hangup, set_answered. repeat first [apply keeps_change; auto|progress keeps_tac]. }
  exact (K w).
Qed.
Theorem who_ends o m sc n c c' : sound_book (book_of m) -> applicable o m -> nth_error (callObjs m) n = Some c -> c_active c = true ->
  nth_error (callObjs (state_after (perform o (start m sc)))) n = Some c' -> c_active c' = false -> ends_by (callUpdates m) (book_of m) n (c_id c) o.
Proof.
  intros Sd Ap Hc Ac Hc' Ac'. rewrite after_last in Hc'. revert c c' Hc Hc' Ac Ac'. change (ends_it (dev (start m sc)) o (dev (last_of (perform o (start m sc)))) n).
  destruct o as [number cb|number cb|k|k|k t|lines|r]; cbn [perform].
  - apply not_ended, grows_not, grows_dial.
  - apply not_ended, grows_not, grows_dial_end.
  - apply not_ended, grows_not, grows_answer.
  - intros c c' H H' A A'. destruct (Nat.eq_dec n k) as [->|N]; [constructor|]. exfalso.
    pose proof (hangup_other k n (start m sc) N) as X. cbn [start dev] in X. idtac; exact (eq_true_false_abs _ A ltac:(replace c with c'; [exact A'|];  pose proof (eq_trans (eq_sym H') (eq_trans X H)) as Q; injection Q as Q; exact Q)).
  - apply kept_alive, keeps_tones.
  - apply (notified_ends lines n (start m sc)) with (before := []); auto.
  - destruct (report_run r (start m sc)) as (x & w' & evs & R & T & _). rewrite R. cbn [last_of]. intros c c' H H' A A'.
    destruct (report_ends _ _ _ _ _ _ _ T H H' A A') as (id & E & I). rewrite (sound_id _ _ _ _ Sd I H). eapply eb_polled; eauto.
Qed.

Lemma in_once t (id : Z) (n k : nat) : NoDup (map fst t) -> In (id, n) t -> In (id, k) t -> n = k.
Proof.
  induction t as [|[a e] t IH]; intros Nd I I'; [destruct I|]. inversion Nd as [|? ? Ni Nd']; subst. destruct I as [E|I]; destruct I' as [E'|I'].
  - congruence.
  - injection E as -> ->. exfalso. apply Ni. apply (in_map fst) in I'. auto.
  - injection E' as -> ->. exfalso. apply Ni. apply (in_map fst) in I. auto.
  - auto.
Qed.
Theorem call_stays m hs m' id n : later m hs m' -> sound_book (book_of m) -> complete_book (book_of m) -> In (id, n) (activeCalls m) ->
  (forall m1 o m2, In (m1, o, m2) hs -> ~ ends_by (callUpdates m1) (book_of m1) n id o /\ no_clash m1 o m2) ->
  sound_book (book_of m') /\ complete_book (book_of m') /\ In (id, n) (activeCalls m').
Proof.
  intros L Sd Cb I H. induction L as [|hs m1 o sc L IH Ap|hs m1 m2 L IH E1 E2]; auto.
  - destruct IH as (Sd1 & Cb1 & I1). { intros a b c Hi. apply H. apply in_or_app. auto. }
    assert (C := perform_change o m1 sc Sd1 Ap).
    destruct (H m1 o (state_after (perform o (start m1 sc))) ltac:(apply in_or_app; right; left; auto)) as (Ne & Nc).
    split; [eapply change_sound; eauto|]. split; [eapply change_complete; eauto|]. destruct Nc as (Nc1 & Nc2).
    destruct (proj2 Sd1 _ _ I1) as (c1 & Hc1 & Id1 & Ac1). cbn in Hc1.
    destruct C as [F E|c E Ac En Or|k c Hk F W Or].
    + rewrite E. auto.
    + apply (entered_in _ _ _ _ En (proj1 Sd1)). right. split; auto. cbn. intro Eq. rewrite E, nth_error_app2, Nat.sub_diag in Nc1 by lia. specialize (Nc1 c eq_refl). apply Nc1. apply (in_map fst) in I1. cbn [fst] in I1. rewrite Eq in I1. exact I1.
    + apply (without_in _ _ _ W). split; auto. cbn. intro Eq. destruct (Nat.eq_dec n k) as [->|N].
      * assert (c = c1) by congruence. subst c. destruct (proj2 F _ _ Hc1) as (c2 & Hc2 & _ & _ & Ac2). specialize (Ac2 eq_refl). apply Ne. rewrite <- Id1. eapply who_ends; eauto.
      * destruct Or as [->|I2].
        -- destruct (c_active c) eqn:Ac.
           ++ pose proof (Cb1 _ _ Hk Ac) as I2. cbn in I2. apply N. rewrite <- Eq in I2. exact (in_once _ _ _ _ (proj1 Sd1) I1 I2).
           ++ apply (Nc2 k c eq_refl Hk Ac). apply (in_map fst) in I1. cbn [fst] in I1. rewrite Eq in I1. exact I1.
        -- apply N. rewrite <- Eq in I2. exact (in_once _ _ _ _ (proj1 Sd1) I1 I2).
  - destruct IH as (Sd1 & Cb1 & I1); auto. split; [eapply book_other; eauto|]. rewrite E2. split; auto. intros k c Hk Ac. cbn in Hk. rewrite E1 in Hk. cbn. rewrite E2. exact (Cb1 _ _ Hk Ac).
Qed.
(** modems without notifications that are understood *)
Lemma none_ends b n id o : ends_by TNone b n id o -> o = Hangup n \/ exists r, o = Polled r.
Proof. intro H. inversion H as [|? ? ? ? ? N|? ? ? ? N|]; eauto; inversion N. Qed.
(** the next call *)
Lemma only_rings b number kind tr x b' id n c : takes_ring b number kind tr x b' -> only_one b number (id, n) -> nth_error (b_calls b) n = Some c ->
  tr = [ERing n] /\ x = Ok tt /\ b_table b' = b_table b /\ length (b_calls b') = length (b_calls b) /\ nth_error (b_calls b') n = Some (rung c).
Proof.
  intros Tr (I & Sm & Oth) Hc. destruct Sm as (a & Ha & Na & Ia). cbn in Ha.
  assert (NF : ~ Forall (other_number b number) (b_table b)). { intro X. rewrite Forall_forall in X. destruct (X _ I) as (a' & Ha' & Na'). cbn in Ha'. congruence. }
  destruct Tr as [ty k b1 Fo|e Fo|t1 i k t2 b1 Et S1 F1 F2 Ri|t1 e t2 b1 Et S1 F1 Ri]; try (exfalso; apply NF; assumption).
  - assert (Ik : In (i, k) (b_table b)) by (rewrite Et; apply in_or_app; right; left; auto). destruct S1 as (a1 & Ha1 & Na1 & _). cbn in Ha1.
    assert (Q : (i, k) = (id, n)). { destruct (Z.eq_dec i id) as [E1|E1]; [destruct (Nat.eq_dec k n) as [E2|E2]; [congruence|]|]; exfalso; (destruct (Oth _ Ik) as (a' & Ha' & Na'); [congruence|cbn in Ha'; congruence]). }
    injection Q as -> ->. destruct Ri as (R1 & R2 & R3 & R4 & R5 & _). repeat split; auto. apply (R5 (id, n) c); auto. congruence.
  - exfalso. destruct S1 as (a1 & Ha1 & Na1 & Ia1). assert (Ne : e <> (id, n)) by (intros ->; cbn in Ha1; congruence).
    destruct (Oth e) as (a' & Ha' & Na'); auto; [|congruence]. rewrite Et. apply in_or_app. right. left. auto.
Qed.
Theorem rings_old before line after m sc n id c number : sound_book (book_of m) -> Forall (unrelated (callUpdates m)) before -> ModemSpec.substring (lit "RING") line ->
  let lines := before ++ line :: after in
  caller (clip m) lines number -> only_one (book_of m) number (id, n) -> nth_error (callObjs m) n = Some c ->
  match handleNotification lines (start m sc) with
  | Done (Ok _) w => exists evs, trace w = evs ++ [ERing n] /\ activeCalls (dev w) = activeCalls m /\ length (callObjs (dev w)) = length (callObjs m) /\ nth_error (callObjs (dev w)) n = Some (rung c)
  | _ => crc m = true /\ exists ring rest, lines = ring :: rest /\ ~ In 32 ring
  end.
Proof.
  intros Sd F Sub lines Ca O Hc. pose proof (ring_noted before line after m sc Sd F Sub) as H. cbn zeta in H. fold lines in H.
  destruct (handleNotification lines (start m sc)) as [x w|w]; [|exact H].
  inversion H as [ring rest evs e crc' El Rk E1 E2 E3 E4|ring rest evs kind crc' num tr y b' El Rk Ca' Tr E1 E2 E3 E4].
  - inversion Rk. split; auto. eauto.
  - rewrite (caller_fun _ _ _ _ Ca' Ca) in Tr. destruct (only_rings _ _ _ _ _ _ _ _ _ Tr O Hc) as (T1 & T2 & T3 & T4 & T5). rewrite T2. exists evs. rewrite T1. auto.
Qed.
Theorem not_picked_up n c w : nth_error (callObjs (dev w)) n = Some c -> c_ringing c = false -> answer n w = Done (Ok tt) w.
Proof. intros Hc R. unfold answer, mbind, get. rewrite (the_call_nth _ _ _ Hc), R. reflexivity. Qed.
