(** Proofs about connect: the service centre number survives it. *)
From Verif Require Import Base RegexModel ModemCore ModemSpec WriteProofs MonadProofs SendSpec SendProofs TrackSpec CoverageSpec CoverageProofs QueryProofs TrieProofs ModemFinal SmsModel CallModel ConnectModel ConnectSpec ConnectProofs.

Lemma centre_app c a b c' : centre c (a ++ b) c' <-> exists c1, centre c a c1 /\ centre c1 b c'.
Proof.
  revert c. induction a as [|q a IH]; intro c; cbn.
  - split; [intro H; exists c; split; [constructor|auto]|]. intros (c1 & H1 & H2). inversion H1; subst. auto.
  - split.
    + intro H. inversion H; subst. match goal with X : centre _ (a ++ b) _ |- _ => apply IH in X as (c1 & A & B) end. exists c1. split; auto. econstructor; eauto.
    + intros (c1 & H1 & H2). inversion H1; subst. econstructor; eauto. apply IH. eauto.
Qed.
(** commands that have nothing to do with it *)
Definition inert (e : event) : Prop := match e with EWrite t _ => ~ starts_with (lit "AT+CSCA") t /\ ~ starts_with (lit "AT+CSMP") t /\ ~ starts_with (lit "ATZ") t | _ => True end.
Lemma inert_text t : startswith t (lit "AT+CSCA") = false -> startswith t (lit "AT+CSMP") = false -> startswith t (lit "ATZ") = false -> forall r, inert (EWrite t r).
Proof.
  intros H1 H2 H3 r. split; [|split]; intros (x & ->); destruct x; vm_compute in H1, H2, H3; discriminate.
Qed.
Ltac inert_w := apply only_write; [intro; apply inert_text; reflexivity|intro; exact Logic.I].
Ltac inert_tac := only_tac; try inert_w; handler_tac; only_tac; try inert_w.
Lemma inert_keeps evs c c' : Forall inert evs -> centre c (asked evs) c' -> c' = c.
Proof.
  intro F. revert c. induction F as [|e evs H F IH]; intros c C; cbn in C; [inversion C; auto|].
  destruct e; cbn in C; fold (asked evs) in C; auto. inversion C as [|? ? c1 ? ? S T]; subst. rewrite (IH _ T).
  destruct H as (H1 & H2 & H3). inversion S; subst; auto; exfalso; try (match goal with X : _ \/ _ |- _ => destruct X; auto end).
  - apply H1. eexists. reflexivity.
  - apply H1. eexists. reflexivity.
Qed.
Lemma rest_inert : only inert connect_memory /\ only inert connect_notifications.
Proof. split; [unfold connect_memory, forget|unfold connect_notifications, forget]; inert_tac. Qed.

Lemma csca_inj n n' : csca_set n ++ [13] = csca_set n' ++ [13] -> n = n'.
Proof. intro H. apply app_inv_tail in H. unfold csca_set in H. apply app_inv_head in H. apply app_inv_tail in H. auto. Qed.
Lemma csca_not_query n : csca_set n ++ [13] <> csca_query ++ [13].
Proof. intro H. apply app_inv_tail in H. discriminate H. Qed.
Lemma csca_not_reset t : starts_with (lit "AT+CSCA") t -> ~ starts_with (lit "AT+CSMP") t /\ ~ starts_with (lit "ATZ") t.
Proof. intros (x & ->). split; intros (y & H); discriminate H. Qed.
Lemma set_starts n : starts_with (lit "AT+CSCA") (csca_set n ++ [13]). Proof. eexists. unfold csca_set. reflexivity. Qed.
Lemma query_starts : starts_with (lit "AT+CSCA") (csca_query ++ [13]). Proof. eexists. reflexivity. Qed.
Lemma first_says_fun {X} (says : str -> X -> Prop) ls x y : (forall l a b, says l a -> says l b -> a = b) -> first_says says ls x -> first_says says ls y -> x = y.
Proof.
  intros F (b1 & l1 & a1 & E1 & S1 & N1) (b2 & l2 & a2 & E2 & S2 & N2). subst ls.
  revert b2 N2 E2. induction N1 as [|h b1 H N1 IH]; intros [|h2 b2] N2 E2; cbn in E2; injection E2 as <- E2; subst; eauto.
  - inversion N2; subst. exfalso. eapply H1; eauto.
  - exfalso. eapply H; eauto.
  - inversion N2; subst. eauto.
Qed.
Lemma csca_line_fun l a b : csca_line l a -> csca_line l b -> a = b.
Proof. intros H1 H2. apply csca_match in H1 as (m1 & R1 & <-). apply csca_match in H2 as (m2 & R2 & <-). congruence. Qed.
Lemma set_step c n ls c' : good_answer ls -> centre_step c (ask (csca_set n) (Lines ls)) c' -> c' = Some n.
Proof.
  intros G S. remember (ask (csca_set n) (Lines ls)) as q eqn:E. destruct S as [n0 ls0 c G0|n0 r0 c c' G0|ls0 n0 G0 F|r0 c F|t0 r0 c c' F|t0 r0 c F1 F2 F3]; unfold ask in E.
  - assert (E1 := f_equal fst E). apply csca_inj in E1. congruence.
  - assert (E1 := f_equal snd E). cbn in E1. injection E1 as ->. destruct (G0 ls); auto.
  - assert (E1 := f_equal fst E). symmetry in E1. destruct (csca_not_query _ E1).
  - assert (E1 := f_equal fst E). symmetry in E1. destruct (csca_not_query _ E1).
  - assert (E1 := f_equal fst E). cbn [fst] in E1. subst t0. destruct (csca_not_reset _ (set_starts n)). tauto.
  - assert (E1 := f_equal fst E). cbn [fst] in E1. subst t0. destruct F1. apply set_starts.
Qed.
Lemma query_step c r c' : centre_step c (ask csca_query r) c' -> c' = c /\ forall ls n, r = Lines ls -> good_answer ls -> first_says csca_line ls n -> c = Some n.
Proof.
  intro S. remember (ask csca_query r) as q eqn:E. destruct S as [n0 ls0 c G0|n0 r0 c c' G0|ls0 n0 G0 F|r0 c F|t0 r0 c c' F|t0 r0 c F1 F2 F3]; unfold ask in E.
  - assert (E1 := f_equal fst E). destruct (csca_not_query _ E1).
  - assert (E1 := f_equal fst E). destruct (csca_not_query _ E1).
  - split; auto. intros ls n -> G F'. assert (E1 := f_equal snd E). cbn in E1. injection E1 as ->. f_equal. eapply first_says_fun; [apply csca_line_fun|eauto|auto].
  - split; auto. intros ls n -> G F'. assert (E1 := f_equal snd E). cbn in E1. injection E1 as ->. destruct (F _ _ eq_refl G F').
  - assert (E1 := f_equal fst E). cbn [fst] in E1. subst t0. destruct (csca_not_reset _ query_starts). tauto.
  - assert (E1 := f_equal fst E). cbn [fst] in E1. subst t0. destruct F1. apply query_starts.
Qed.
Lemma set_all c n busy ls c' : good_answer ls -> centre c (map (ask (csca_set n)) (busy ++ [Lines ls])) c' -> c' = Some n.
Proof.
  intros G H. rewrite map_app in H. apply centre_app in H as (c1 & _ & H). cbn in H. inversion H as [|? ? c2 ? ? S T]; subst. inversion T; subst. eapply set_step; eauto.
Qed.
Lemma query_all rs c c' : centre c (map (ask csca_query) rs) c' -> c' = c /\ forall ls n, In (Lines ls) rs -> good_answer ls -> first_says csca_line ls n -> c = Some n.
Proof.
  revert c. induction rs as [|r rs IH]; intros c H; cbn in H; inversion H as [|? ? c2 ? ? S T]; subst; [split; auto; intros ? ? []|].
  apply IH in T as [-> T]. apply query_step in S as [-> S]. split; auto. intros ls n [->|I] G F; eauto.
Qed.

(** ** Getting and setting the number *)
Lemma get_asked w x w' : smscNumber (dev w) = None -> get_smsc w = Done (Ok x) w' -> alive (dev w') = alive (dev w) /\ smscNumber (dev w') = x /\ exists rs,
  asked (trace w') = asked (trace w) ++ map (ask csca_query) rs /\
  match x with Some n => exists ls, In (Lines ls) rs /\ good_answer ls /\ first_says csca_line ls n | None => exists r, In r rs /\ untold r end.
Proof.
  intros N H. 
  assert (KA : alive (dev w') = alive (dev w)).
  { assert (K : keeps alive get_smsc).
    { unfold get_smsc. keeps_tac. apply keeps_try; [keeps_tac|]. intros e k E. destruct e; try discriminate E. injection E as <-. apply keeps_ret. }
    specialize (K w). rewrite H in K. exact K. }
  split; auto. split.
  { pose proof (smsc_asked w x w' N H) as S. destruct x; [destruct S as (? & ? & ? & _ & _ & _ & _ & S); auto|destruct S; auto]. }
  unfold get_smsc in H. unfold mbind at 1, get in H. rewrite N in H. unfold mbind at 1, try_except in H.
  unfold mbind at 1 in H. destruct (write (lit "AT+CSCA?") w) as [[ls|e] w1|w1] eqn:W; [| |discriminate].
  - cbn [ret] in H. apply ask_ok in W as (busy & codes & E & B & G & A). exists (busy ++ [Lines ls]).
    pose proof (line_matching_says CSCA_REGEX csca_line (group 1) ls csca_match csca_match_inv) as L. destruct (line_matching CSCA_REGEX ls) as [m|].
    + unfold mbind, modify, ret in H. injection H as <- <-. cbn [trace] in *. split; auto. exists ls. split; auto. apply in_or_app. right. left. auto.
    + injection H as <- <-. split; auto. exists (Lines ls). split; [apply in_or_app; right; left; auto|left; eauto].
  - destruct e; try discriminate. cbn [ret] in H. injection H as <- <-.
    apply write_done in W as (busy & codes & r & E & B & NB & O & _ & T). exists (busy ++ [r]). rewrite T, asked_app, asked_attempts. split; auto.
    exists r. split; [apply in_or_app; right; left; auto|]. right. inversion O; subst. match goal with X : exception_for _ _ _ _ |- _ => inversion X; subst end. eauto.
Qed.
Lemma set_asked w n w' : alive (dev w) = true -> smscNumber (dev w) <> Some n -> set_smsc n w = Done (Ok tt) w' -> smscNumber (dev w') = Some n /\ exists busy ls,
  asked (trace w') = asked (trace w) ++ map (ask (csca_set n)) (busy ++ [Lines ls]) /\ good_answer ls.
Proof.
  intros A N H. unfold set_smsc in H. unfold mbind at 1, get in H.
  assert (E : opt_str_eqb (Some n) (smscNumber (dev w)) = false).
  { unfold opt_str_eqb. destruct (smscNumber (dev w)) as [s|]; auto. destruct (str_eqb_spec n s); congruence. }
  rewrite E, A in H. cbn [negb] in H. apply bind_ok in H as ([] & w1 & H & H2). unfold modify in H2. injection H2 as <-. cbn [dev trace]. split; [reflexivity|].
  apply bind_ok in H as (ls & w2 & W & H). unfold ret in H. injection H as ->. apply ask_ok in W as (busy & codes & E2 & B & G & T). exists busy, ls. auto.
Qed.

(** ** connect *)
Ltac keeps_more := repeat first [progress keeps_tac | apply keeps_try; [|intros ? ? ?] ].
Ltac keeps_handlers := repeat match goal with
  | H : on_CommandError _ _ = Some _ |- _ => unfold on_CommandError in H
  | H : (match ?x with _ => _ end) = Some _ |- _ => destruct x; try discriminate H
  | H : Some _ = Some ?k |- keeps _ ?k => injection H as <-
  end.
Ltac keeps_all := repeat first [progress keeps_more | progress keeps_handlers].
Lemma keeps_unlock {X} (f : modem -> X) : (forall v m, f (set_writeWait v m) = f m) -> forall pin, keeps f (unlockSim pin).
Proof.
  intros H pin. unfold unlockSim, forget. apply keeps_bind.
  - apply keeps_try; [apply keeps_bind; [apply keeps_write; auto|intro; apply keeps_ret]|]. intros e k E. destruct e; try discriminate E. destruct data; try discriminate E. destruct (lineStartingWith _ _); try discriminate E. injection E as <-. apply keeps_ret.
  - intro y. destruct (opt_str_eqb _ _); [apply keeps_ret|]. destruct pin; [|apply keeps_raise]. apply keeps_bind; [apply keeps_write; auto|intro; apply keeps_ret].
Qed.
Definition both (m : modem) : bool * option str := (alive m, smscNumber m).
Lemma reset_both pin : keeps both (connect_reset pin).
Proof. unfold connect_reset, forget. keeps_all; try (apply keeps_unlock; intros; reflexivity). Qed.
Lemma commands_both : keeps both supportedCommands.
Proof. unfold supportedCommands. keeps_all. Qed.
Lemma hint_both cs : keeps both (connect_hint cs).
Proof. unfold connect_hint, forget, manufacturer, query_first, first_line. keeps_all. Qed.
Lemma table_both cs h : keeps both (connect_table cs h).
Proof. unfold connect_table. keeps_all. Qed.
Lemma memory_both : keeps both connect_memory.
Proof. unfold connect_memory, forget. keeps_all. Qed.
Lemma notifications_both : keeps both connect_notifications.
Proof. unfold connect_notifications, forget. keeps_all. Qed.

Lemma write_both data w : both (dev (last_of (write data w))) = both (dev w).
Proof. apply (keeps_write both data CR true). reflexivity. Qed.
Lemma noparse_ok data w ls w' : write_noparse data w = Done (Ok ls) w' -> both (dev w') = both (dev w) /\ exists r, asked (trace w') = asked (trace w) ++ [ask data r].
Proof.
  intro H. unfold write_noparse in H. pose proof (write_noparse_any data CR w) as S. destruct (script w) as [|r rest]; [congruence|].
  destruct S as (x & S & _). rewrite S in H. injection H as -> <-. cbn [dev trace]. split; auto. exists r. apply asked_settled.
Qed.
Lemma sms_spec w w' : alive (dev w) = true -> connect_sms w = Done (Ok tt) w' -> exists a r b,
  asked (trace w') = asked (trace w) ++ a ++ (csmp, Some r) :: b /\
  (forall n, smscNumber (dev w) = Some n -> smscNumber (dev w') = Some n) /\
  match smscNumber (dev w') with
  | Some n => (forall c c1, centre c a c1 -> c1 = Some n) /\ (forall c c1, centre c b c1 -> c1 = Some n)
  | None => exists r, In (ask csca_query r) a /\ untold r
  end.
Proof.
  intros AL H. unfold connect_sms in H. unfold mbind at 1, get in H. apply bind_ok in H as (l1 & w1 & W1 & H).
  pose proof (write_both (lit "AT+CMGF=" ++ str_of_Z (if smsTextMode (dev w) then 1 else 0)) w) as B1. rewrite W1 in B1. cbn [last_of] in B1. injection B1 as AL1 SM1.
  apply ask_ok in W1 as (bu1 & co1 & _ & _ & G1 & A1).
  apply bind_ok in H as (cur & w2 & H2 & H).
  assert (K : exists a, asked (trace w2) = asked (trace w1) ++ a /\ alive (dev w2) = true /\ smscNumber (dev w2) = cur /\ (forall n, smscNumber (dev w) = Some n -> cur = Some n) /\
    match cur with Some n => forall c c1, centre c a c1 -> c1 = Some n | None => exists r, In (ask csca_query r) a /\ untold r end).
  { destruct (smscNumber (dev w)) as [n|] eqn:E.
    - apply bind_ok in H2 as (l2 & w2' & W2 & H2). unfold ret in H2. injection H2 as <- <-.
      pose proof (write_both (lit "AT+CSCA=""" ++ n ++ lit """") w1) as B2. rewrite W2 in B2. cbn [last_of] in B2. injection B2 as AL2 SM2.
      apply ask_ok in W2 as (bu2 & co2 & _ & _ & G2 & A2). change (lit "AT+CSCA=""" ++ n ++ lit """") with (csca_set n) in A2.
      exists (map (ask (csca_set n)) (bu2 ++ [Lines l2])). rewrite A2. split; auto. split; [congruence|]. split; [congruence|]. split; [congruence|].
      intros c c1 C. eapply set_all; eauto.
    - destruct (get_asked _ _ _ SM1 H2) as (AL2 & SM2 & rs & A2 & M). exists (map (ask csca_query) rs). split; auto.
      split; [congruence|]. split; auto. split; [congruence|]. destruct cur as [n|].
      + destruct M as (ls & I & G & F). intros c c1 C. apply query_all in C as [-> C]. eauto.
      + destruct M as (r & I & U). exists r. split; auto. apply in_map. auto. }
  destruct K as (a & A2 & AL2 & SM2 & P & M).
  set (cm := map (ask (lit "AT+CMGF=" ++ str_of_Z (if smsTextMode (dev w) then 1 else 0))) (bu1 ++ [Lines l1])) in *.
  apply bind_ok in H as ([] & w3 & H3 & H).
  assert (K3 : trace w3 = trace w2 /\ alive (dev w3) = true /\ smscNumber (dev w3) = None).
  { destruct cur; unfold modify, ret in H3; injection H3 as <-; auto. }
  destruct K3 as (A3 & AL3 & SM3). apply bind_ok in H as (l4 & w4 & W4 & H). apply noparse_ok in W4 as (B4 & r & A4). injection B4 as AL4 SM4.
  exists (cm ++ a), r. destruct cur as [n|].
  - apply bind_ok in H as (now & w5 & H5 & H). rewrite SM3 in SM4. destruct (get_asked _ _ _ SM4 H5) as (AL5 & SM5 & rs & A5 & M5).
    assert (C1 : forall c c1, centre c (cm ++ a) c1 -> c1 = Some n) by (intros c c1 C; apply centre_app in C as (c2 & _ & C); eauto).
    destruct (opt_str_eqb now (Some n)) eqn:E; cbn [negb] in H.
    + unfold ret in H. injection H as <-. assert (now = Some n) as ->. { unfold opt_str_eqb in E. destruct now as [s|]; [|discriminate]. destruct (str_eqb_spec s n); congruence. }
      exists (map (ask csca_query) rs). rewrite A5, A4, A3, A2, A1, SM5, <- !app_assoc. split; [reflexivity|]. split; [intros n' E'; rewrite (P n' E'); auto|]. split; auto.
      destruct M5 as (ls & I & G & F). intros c c1 C. apply query_all in C as [-> C]. eauto.
    + assert (smscNumber (dev w5) <> Some n). { rewrite SM5. intro X. subst now. rewrite X in E. unfold opt_str_eqb in E. rewrite str_eqb_refl in E. discriminate. }
      assert (AL5' : alive (dev w5) = true) by congruence. destruct (set_asked _ _ _ AL5' H0 H) as (SM6 & bu & ls & A6 & G6).
      exists (map (ask csca_query) rs ++ map (ask (csca_set n)) (bu ++ [Lines ls])). rewrite A6, A5, A4, A3, A2, A1, SM6, <- !app_assoc. split; [reflexivity|].
      split; [intros n' E'; rewrite (P n' E'); auto|]. split; auto. intros c c1 C. apply centre_app in C as (c2 & _ & C). eapply set_all; eauto.
  - unfold ret in H. injection H as <-. exists []. rewrite A4, A3, A2, A1, SM4, SM3, <- !app_assoc. split; [reflexivity|]. split.
    + intros n E. specialize (P n E). discriminate.
    + destruct M as (r0 & I & U). exists r0. split; auto. apply in_or_app. auto.
Qed.
Lemma centre_kept pin m sc w : connect pin (start m sc) = Done (Ok tt) w -> exists a r b,
  asked (trace w) = a ++ (csmp, Some r) :: b /\
  (forall n, smscNumber m = Some n -> smscNumber (dev w) = Some n) /\
  match smscNumber (dev w) with
  | Some n => (forall c c1, centre c a c1 -> c1 = Some n) /\ (forall c c1, centre c b c1 -> c1 = Some n)
  | None => exists r, In (ask csca_query r) a /\ untold r
  end.
Proof.
  intro H. unfold connect in H. apply bind_ok in H as ([] & w1 & H1 & H). unfold modify in H1. injection H1 as <-.
  assert (KB : forall A (c : M A) w0 x w1, keeps both c -> c w0 = Done x w1 -> both (dev w1) = both (dev w0)).
  { intros A c w0 x w1 K E. specialize (K w0). rewrite E in K. exact K. }
  apply bind_ok in H as ([] & w2 & H2 & H). apply (KB _ _ _ _ _ (reset_both pin)) in H2.
  apply bind_ok in H as (cs & w3 & H3 & H). apply (KB _ _ _ _ _ commands_both) in H3.
  apply bind_ok in H as (h & w4 & H4 & H). apply (KB _ _ _ _ _ (hint_both cs)) in H4.
  apply bind_ok in H as ([] & w5 & H5 & H). apply (KB _ _ _ _ _ (table_both cs h)) in H5.
  apply bind_ok in H as (l6 & w6 & H6 & H). apply noparse_ok in H6 as (H6 & _).
  apply bind_ok in H as ([] & w7 & H7 & H).
  apply bind_ok in H as ([] & w8 & H8 & H9).
  rewrite H5, H4, H3, H2 in H6. unfold both in H6. cbn in H6. injection H6 as AL SM.
  destruct (sms_spec _ _ AL H7) as (a & r & b & A7 & P & M).
  pose proof (KB _ _ _ _ _ memory_both H8) as B8. pose proof (KB _ _ _ _ _ notifications_both H9) as B9.
  destruct rest_inert as [R1 R2]. destruct (R1 w7) as (e1 & T8 & F8). rewrite H8 in T8. cbn [last_of] in T8. destruct (R2 w8) as (e2 & T9 & F9). rewrite H9 in T9. cbn [last_of] in T9.
  assert (SM9 : smscNumber (dev w) = smscNumber (dev w7)) by (unfold both in *; congruence).
  exists (asked (trace w6) ++ a), r, (b ++ asked (e1 ++ e2)). rewrite T9, T8, !asked_app, A7, SM9, <- !app_assoc. split; [reflexivity|].
  split; [intros n E; apply P; congruence|]. destruct (smscNumber (dev w7)) as [n|].
  - destruct M as [M1 M2]. split.
    + intros c c1 C. apply centre_app in C as (c2 & _ & C). eauto.
    + intros c c1 C. apply centre_app in C as (c2 & C2 & C). rewrite <- asked_app in C. apply inert_keeps in C as ->; eauto. apply Forall_app. auto.
  - destruct M as (r0 & I & U). exists r0. split; auto. apply in_or_app. auto.
Qed.
