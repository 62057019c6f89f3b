(** Proofs about connecting that fails. *)
From Verif Require Import Base RegexModel RegexProofs UtilModel UtilSpec UtilProofs ModemCore ModemSpec WriteProofs MonadProofs SendSpec SendProofs TrackSpec CoverageSpec CoverageProofs QueryProofs TrieProofs ModemFinal SmsModel CallModel RingProofs ConnectModel ConnectSpec ConnectProofs SetupSpec SetupProofs FailSpec.
From Verif Require Gsm7Proofs.

Definition why := list (str * option reply) -> str -> reply -> exn -> Prop.
Definition lasts (P : why) (w : world) (e : exn) (w' : world) : Prop := exists l c r, asked (trace w') = asked (trace w) ++ l ++ [ask c r] /\ P l c r e.
Definition blamed {A} (P : why) (c : M A) : Prop := forall w e w', c w = Done (Err e) w' -> lasts P w e w'.
Definition mono (P : why) : Prop := forall l0 l c r e, P l c r e -> P (l0 ++ l) c r e.
Definition grows {A} (c : M A) : Prop := only (fun _ => True) c.
Lemma grows_write data term pe : grows (write_with data term pe). Proof. apply only_write; auto. Qed.
Ltac gr := unfold grows, forget; only_tac; try (apply only_write; auto); handler_tac; only_tac; try (apply only_write; auto).
Lemma grows_asked {A} (c : M A) w : grows c -> exists l, asked (trace (last_of (c w))) = asked (trace w) ++ l.
Proof. intro G. destruct (G w) as (evs & T & _). exists (asked evs). rewrite T, asked_app. reflexivity. Qed.

Lemma bl_ret P {A} (x : A) : blamed P (ret x). Proof. intros w e w' H. discriminate. Qed.
Lemma bl_get P : blamed P get. Proof. intros w e w' H. discriminate. Qed.
Lemma bl_modify P f : blamed P (modify f). Proof. intros w e w' H. discriminate. Qed.
Lemma lasts_more P w w1 e w' l0 : mono P -> asked (trace w1) = asked (trace w) ++ l0 -> lasts P w1 e w' -> lasts P w e w'.
Proof. intros Mo E (l & c & r & T & H). exists (l0 ++ l), c, r. split; [rewrite T, E, !app_assoc; reflexivity|apply Mo; exact H]. Qed.
Lemma bl_bind P {A B} (c : M A) (k : A -> M B) : mono P -> grows c -> blamed P c -> (forall x, blamed P (k x)) -> blamed P (mbind c k).
Proof.
  intros Mo G H1 H2 w e w' H. unfold mbind in H. destruct (grows_asked c w G) as [l0 E]. destruct (c w) as [[a|x] w1|w1] eqn:C; [| |discriminate].
  - cbn in E. exact (lasts_more P w w1 e w' l0 Mo E (H2 a w1 e w' H)).
  - injection H as <- <-. exact (H1 w x w1 C).
Qed.
Lemma bl_weaken (P Q : why) {A} (c : M A) : (forall l c r e, P l c r e -> Q l c r e) -> blamed P c -> blamed Q c.
Proof. intros I H w e w' E. destruct (H w e w' E) as (l & c0 & r & T & X). exists l, c0, r. auto. Qed.
Lemma write_err cmd w e w' : write cmd w = Done (Err e) w' -> exists l r, asked (trace w') = asked (trace w) ++ l ++ [ask cmd r] /\ not_busy r /\ outcome cmd r (Err e).
Proof.
  intros W. apply write_done in W as (busy & codes & r & E & B & NB & O & _ & T). exists (map (ask cmd) busy), r. split; [|auto].
  rewrite T, asked_app, asked_attempts, map_app. reflexivity.
Qed.
Lemma bl_write (P : why) cmd : (forall l r e, not_busy r -> outcome cmd r (Err e) -> P l cmd r e) -> blamed P (write cmd).
Proof. intros H w e w' W. apply write_err in W as (l & r & T & NB & O). exists l, cmd, r. auto. Qed.
Lemma noparse_err cmd w e w' : write_noparse cmd w = Done (Err e) w' -> exists r, asked (trace w') = asked (trace w) ++ [ask cmd r] /\ ~ refusal r /\ not_busy r /\ outcome cmd r (Err e).
Proof.
  destruct w as [m sc tr]. unfold write_noparse, write_with. cbn [script dev trace]. destruct sc as [|[ls|ls] sc]; cbn [write_on]; [discriminate| |].
  - destruct ls as [|line ls _] using rev_ind; [|rewrite rev_app_distr; cbn [rev List.app]; discriminate].
    intros [= <- <-]. exists (Lines []). cbn [trace]. rewrite paused_eq, !asked_app. split; [unfold pause; destruct (0 <? _); cbn; rewrite ?app_nil_r; reflexivity|].
    split; [intros (_ & b & line & E & _); destruct b; discriminate|]. split; [intros c (_ & b & line & k & E & _); destruct b; discriminate|constructor].
  - destruct ls as [|l ls]; intros [= <- <-]; [exists (NoReply [])|exists (NoReply (l :: ls))]; cbn [trace]; rewrite asked_app; (split; [reflexivity|]);
      (split; [intros (_ & b & line & E & _); discriminate|]); (split; [intros c (_ & b & line & k & E & _); discriminate|constructor]).
Qed.
Lemma bl_noparse (P : why) cmd : (forall l r e, ~ refusal r -> not_busy r -> outcome cmd r (Err e) -> P l cmd r e) -> blamed P (write_noparse cmd).
Proof. intros H w e w' W. apply noparse_err in W as (r & T & R & NB & O). exists [], cmd, r. split; [exact T|apply H; auto]. Qed.
Lemma bl_try (P Q : why) {A} (c k : M A) : mono P -> grows c -> blamed Q c -> (forall l cm r e, Q l cm r e -> is_CommandError e = false -> P l cm r e) -> blamed P k ->
  blamed P (try_except c (on_CommandError k)).
Proof.
  intros Mo G H1 I H2 w e w' H. unfold try_except, on_CommandError in H. destruct (grows_asked c w G) as [l0 E]. destruct (c w) as [[a|x] w1|w1] eqn:C; [discriminate H| |discriminate H].
  destruct (is_CommandError x) eqn:X.
  - exact (lasts_more P w w1 e w' l0 Mo E (H2 w1 e w' H)).
  - injection H as <- <-. destruct (H1 w x w1 C) as (l & cm & r & T & Y). exists l, cm, r. split; [exact T|]. apply I; auto.
Qed.
(** an exception that follows from the answer *)
Definition blamed_or {A} (P : why) (cmd : str) (ls : list str) (c : M A) : Prop := forall w e w', c w = Done (Err e) w' ->
  (trace w' = trace w /\ forall l, P l cmd (Lines ls) e) \/ lasts P w e w'.
Lemma bo_blamed P cmd ls {A} (c : M A) : blamed P c -> blamed_or P cmd ls c. Proof. intros H w e w' E. right. eauto. Qed.
Lemma bo_raise (P : why) cmd ls {A} x : (forall l, P l cmd (Lines ls) x) -> blamed_or P cmd ls (@raise A x). Proof. intros H w e w' [= <- <-]. left. auto. Qed.
Lemma bo_lift (P : why) cmd ls {A B} (x : res A) (k : A -> M B) : (forall e l, x = Err e -> P l cmd (Lines ls) e) -> (forall a, x = Ok a -> blamed_or P cmd ls (k a)) -> blamed_or P cmd ls (mbind (lift x) k).
Proof.
  intros H1 H2 w e w' H. unfold mbind, lift in H. destruct x as [a|y]; [exact (H2 a eq_refl w e w' H)|]. injection H as <- <-. left. auto.
Qed.
Lemma write_good cmd w ls w' : write cmd w = Done (Ok ls) w' -> exists l, asked (trace w') = asked (trace w) ++ l ++ [ask cmd (Lines ls)] /\ good_answer ls.
Proof.
  intro W. apply write_done in W as (busy & codes & r & E & B & NB & O & _ & T). inversion O as [| | |ls0 line G X Y| | |]; subst. exists (map (ask cmd) busy).
  rewrite T, asked_app, asked_attempts, map_app. split; [reflexivity|]. exists ls0, line. auto.
Qed.
Lemma bl_after (P : why) cmd {A} (k : list str -> M A) : mono P -> (forall l r e, not_busy r -> outcome cmd r (Err e) -> P l cmd r e) -> (forall ls, good_answer ls -> blamed_or P cmd ls (k ls)) ->
  blamed P (mbind (write cmd) k).
Proof.
  intros Mo H1 H2 w e w' H. unfold mbind in H. destruct (write cmd w) as [[ls|x] w1|w1] eqn:W; [| |discriminate H].
  - apply write_good in W as (l & T & G). destruct (H2 ls G w1 e w' H) as [[E Y]|L].
    + exists l, cmd, (Lines ls). rewrite E. auto.
    + exact (lasts_more P w w1 e w' _ Mo T L).
  - injection H as <- <-. exact (bl_write P cmd H1 w x w1 W).
Qed.
Lemma bl_query (P : why) cmd {A B} (f : list str -> B) (k : option B -> M A) : mono P -> (forall l r e, not_busy r -> outcome cmd r (Err e) -> is_CommandError e = false -> P l cmd r e) ->
  blamed P (k None) -> (forall ls, good_answer ls -> blamed_or P cmd ls (k (Some (f ls)))) ->
  blamed P (mbind (try_except (mbind (write cmd) (fun ls => ret (Some (f ls)))) (on_CommandError (ret None))) k).
Proof.
  intros Mo H1 H2 H3 w e w' H. unfold mbind, try_except, on_CommandError, ret in H. destruct (grows_asked (write cmd) w (grows_write _ _ _)) as [l0 E].
  destruct (write cmd w) as [[ls|x] w1|w1] eqn:W; [| |discriminate H].
  - apply write_good in W as (l & T & G). destruct (H3 ls G w1 e w' H) as [[E' Y]|L].
    + exists l, cmd, (Lines ls). rewrite E'. auto.
    + exact (lasts_more P w w1 e w' _ Mo T L).
  - destruct (is_CommandError x) eqn:X.
    + exact (lasts_more P w w1 e w' l0 Mo E (H2 w1 e w' H)).
    + injection H as <- <-.
      apply write_err in W as (l & r & T & NB & O). exists l, cmd, r. auto.
Qed.

Lemma mono_failure pin : mono (failure pin).
Proof.
  intros l0 l c r e H. destruct H as [before c r e O D Z C S| | | | |]; [|eapply fl_no_line; eauto|eapply fl_no_number; eauto|eapply fl_no_memories; eauto|eapply fl_bare_memories; eauto|eapply fl_no_pin; eauto].
  apply fl_answer; auto. intros E R. specialize (Z E R). unfold sent in *. rewrite map_app. apply in_or_app. auto.
Qed.
Lemma mem_not c l : mem_str c l = false -> ~ In c l.
Proof. intros H I. unfold mem_str in H. assert (existsb (str_eqb c) l = true) as X; [|congruence]. apply existsb_exists. exists c. split; [exact I|]. apply Gsm7Proofs.str_eqb_eq. reflexivity. Qed.
Lemma refusal_command t r e : refusal r -> outcome t r (Err e) -> is_CommandError e = true.
Proof.
  intros (NB & b & line & -> & N) O. inversion O as [| |X| | ls l k c e' C NC F X Y| |]; subst; try reflexivity.
  - destruct b; discriminate.
  - inversion F; reflexivity.
Qed.
Lemma answer_fails pin cmd : mem_str cmd (lit "ATZ" :: lit "AT+CPIN?" :: lit "AT+CSCA?" :: dispensable) = false ->
  forall l r e, not_busy r -> outcome cmd r (Err e) -> failure pin l cmd r e.
Proof.
  intros H l r e NB O. apply mem_not in H. apply fl_answer; [exact O| | | |]; intros X; exfalso; apply H; subst; cbn [In]; auto.
Qed.
Lemma answer_disp pin cmd : mem_str cmd [lit "ATZ"; lit "AT+CPIN?"; lit "AT+CSCA?"] = false ->
  forall l r e, not_busy r -> outcome cmd r (Err e) -> is_CommandError e = false -> failure pin l cmd r e.
Proof.
  intros H l r e NB O C. apply mem_not in H. apply fl_answer; [exact O| | | |]; intros X; try (exfalso; apply H; subst; cbn [In]; auto; fail).
  intro R. pose proof (refusal_command _ _ _ R O). congruence.
Qed.
Lemma answer_noparse pin cmd : mem_str cmd [lit "ATZ"; lit "AT+CPIN?"; lit "AT+CSCA?"] = false ->
  forall l r e, ~ refusal r -> not_busy r -> outcome cmd r (Err e) -> failure pin l cmd r e.
Proof. intros H l r e R NB O. apply mem_not in H. apply fl_answer; [exact O| | | |]; intros X; try (exfalso; apply H; subst; cbn [In]; auto; fail). exact R. Qed.
Ltac bl := repeat first
  [ apply bl_ret | apply bl_get | apply bl_modify
  | apply bl_write; apply answer_fails; reflexivity
  | apply bl_noparse; apply answer_noparse; reflexivity
  | apply bl_bind; [apply mono_failure|solve [gr]| |intros ?]
  | match goal with |- blamed _ (if ?b then _ else _) => destruct b end
  | match goal with |- blamed _ (match ?b with _ => _ end) => destruct b end ].
(** a command whose refusal is caught *)
Lemma bl_caught pin cmd {A} (x : A) (k : M A) : mem_str cmd [lit "ATZ"; lit "AT+CPIN?"; lit "AT+CSCA?"] = false -> blamed (failure pin) k ->
  blamed (failure pin) (try_except (write cmd ;;; ret x) (on_CommandError k)).
Proof.
  intros H K. apply (bl_try (failure pin) (fun l c r e => c = cmd /\ not_busy r /\ outcome cmd r (Err e))); [apply mono_failure|gr| | |exact K].
  - intros w e w' E. unfold mbind in E. destruct (write cmd w) as [[ls|y] w1|w1] eqn:W; try discriminate E. injection E as <- <-. apply write_err in W as (l & r & T & NB & O). exists l, cmd, r. auto.
  - intros l c r e (-> & NB & O) C. eapply answer_disp; eauto.
Qed.
Lemma starting_none p ls : lineStartingWith p ls = None -> forall l, In l ls -> ~ starts_with p l.
Proof. intros E. pose proof (starting_with_spec p ls) as H. rewrite E in H. exact H. Qed.
Lemma starting_some p ls l : lineStartingWith p ls = Some l -> first_such (starts_with p) ls l.
Proof. intros E. pose proof (starting_with_spec p ls) as H. rewrite E in H. exact H. Qed.
Lemma number_fails pin cmd p ls e l : In (cmd, p) number_query -> good_answer ls -> int_from_7 (lineStartingWith p ls) = Err e -> failure pin l cmd (Lines ls) e.
Proof.
  intros I G E. unfold int_from_7 in E. destruct (lineStartingWith p ls) as [x|] eqn:S.
  - pose proof (py_int_err _ _ _ E) as ->. eapply fl_no_number; eauto. apply starting_some. exact S.
  - injection E as <-. eapply fl_no_line; eauto. apply starting_none. exact S.
Qed.
Lemma bl_smsc pin : blamed (failure pin) get_smsc.
Proof.
  unfold get_smsc. apply bl_bind; [apply mono_failure|gr|apply bl_get|intro m]. destruct (smscNumber m); [apply bl_ret|].
  apply bl_bind; [apply mono_failure|gr| |intro x; destruct x; bl].
  intros w e w' H. unfold try_except, mbind in H. destruct (write (lit "AT+CSCA?") w) as [[ls|y] w1|w1] eqn:W; try discriminate H.
  assert (N : (forall c k, y <> SmscNumberUnknownError c k) -> Done (Err y) w1 = Done (@Err (option (list str)) e) w' -> lasts (failure pin) w e w').
  { intros N [= <- <-]. apply write_err in W as (l & r & T & NB & O). exists l, (lit "AT+CSCA?"), r. split; [exact T|].
    apply fl_answer; [exact O| | | |]; intros X; try (exfalso; revert X; apply mem_not; reflexivity); try discriminate X. intros c E. exact (N c 330 E). }
  destruct y; try (apply N; [discriminate|exact H]). discriminate H.
Qed.
Lemma bl_set_smsc pin n : blamed (failure pin) (set_smsc n).
Proof. unfold set_smsc. bl. Qed.

Lemma error_not_good cmd ls e : outcome cmd (Lines ls) (Err e) -> ~ good_answer ls.
Proof.
  intros O (b & x & E & Gx). inversion O as [|l l2 | E1|l l2 G E1|l l2 k c e' C NC F E1|l l2 El NC E1|l E1]; subst.
  - destruct b; discriminate E1.
  - apply app_inj_tail in E1 as [_ ->]. apply (proj1 Gx). eapply cm_is_error; eauto.
  - apply app_inj_tail in E1 as [_ ->]. apply (proj1 Gx). exact El.
  - apply app_inj_tail in E1 as [_ <-]. apply (proj2 Gx). reflexivity.
Qed.
Lemma timeout_reply cmd r d : outcome cmd r (Err (TimeoutException d)) -> exists ls, r = NoReply ls /\ d = match ls with [] => None | _ => Some ls end.
Proof.
  intro O. inversion O as [|l l2 | | |l l2 k c e' C NC F| |]; subst; [exists []; auto|exists (l :: l2); auto|inversion F].
Qed.
Lemma other_reply cmd r e : outcome cmd r (Err e) -> (forall d, e <> TimeoutException d) -> exists ls, r = Lines ls.
Proof. intros O N. inversion O; subst; eauto; exfalso; eapply N; reflexivity. Qed.
Lemma bl_unlock pin : blamed (failure pin) (unlockSim pin).
Proof.
  assert (Known : forall (line : option str) l (r : reply), pin_in_time r -> (line = None -> forall x, In x (lines_in r) -> ~ starts_with (lit "+CPIN") x) -> (forall x, line = Some x -> first_such (starts_with (lit "+CPIN")) (lines_in r) x) ->
    forall w0 w e w', asked (trace w) = asked (trace w0) ++ l ++ [ask (lit "AT+CPIN?") r] ->
    (if opt_str_eqb line (Some (lit "+CPIN: READY")) then ret tt else match pin with Some p => forget (write (lit "AT+CPIN=""" ++ p ++ lit """")) | None => raise (PinRequiredError (lit "AT+CPIN") 11) end) w = Done (Err e) w' ->
    lasts (failure pin) w0 e w').
  { intros line l r PT N S w0 w e w' T H. destruct (opt_str_eqb line (Some (lit "+CPIN: READY"))) eqn:R; [discriminate H|].
    destruct pin as [p|] eqn:Pin.
    - assert (B : blamed (failure (Some p)) (forget (write (lit "AT+CPIN=""" ++ p ++ lit """")))) by (unfold forget; bl).
      exact (lasts_more _ w0 w e w' _ (mono_failure (Some p)) T (B w e w' H)).
    - injection H as <- <-. exists l, (lit "AT+CPIN?"), r. split; [exact T|]. apply fl_no_pin; auto. intros (b & a & E & F).
      destruct line as [x|].
      + destruct (S x eq_refl) as (b' & a' & E' & Sx & F'). rewrite E in E'. assert (x = lit "+CPIN: READY"); [|subst x; discriminate R].
        clear - E' F F' Sx. revert b' E' F'. induction F as [|y b Ny F IH]; intros [|y' b'] E' F'.
        * cbn [List.app] in E'. injection E' as E' _. symmetry. exact E'.
        * cbn [List.app] in E'. injection E' as <- E'. exfalso. apply (F' (lit "+CPIN: READY")); [left; reflexivity|]. exists (lit ": READY"). reflexivity.
        * cbn [List.app] in E'. injection E' as <- E'. contradiction.
        * cbn [List.app] in E'. injection E' as <- E'. apply (IH b' E'). intros z I. apply F'. right. exact I.
      + apply (N eq_refl (lit "+CPIN: READY")); [rewrite E; apply in_or_app; right; left; reflexivity|exists (lit ": READY"); reflexivity]. }
  intros w e w' H. unfold unlockSim in H. unfold mbind at 1 in H. unfold try_except, mbind in H.
  destruct (write (lit "AT+CPIN?") w) as [[ls|y] w1|w1] eqn:W; [| |discriminate H].
  - apply write_good in W as (l & T & G). cbn in H. refine (Known (lineStartingWith (lit "+CPIN") ls) l (Lines ls) G (starting_none _ _) (fun x => starting_some _ _ x) w w1 e w' T H).
  - apply write_err in W as (l & r & T & NB & O).
    assert (N : ~ pin_in_time r -> Done (Err y) w1 = Done (@Err unit e) w' -> lasts (failure pin) w e w').
    { intros N [= <- <-]. exists l, (lit "AT+CPIN?"), r. split; [exact T|]. apply fl_answer; [exact O| | | |]; intros X; try (exfalso; revert X; apply mem_not; reflexivity); try discriminate X. exact N. }
    assert (NL : forall ls, r = Lines ls -> ~ pin_in_time r) by (intros ls ->; exact (error_not_good _ _ _ O)).
    destruct y; try (apply N; [|exact H]; destruct (other_reply _ _ _ O ltac:(intro; discriminate)) as [ls ->]; exact (NL ls eq_refl)).
    apply timeout_reply in O as (ls & -> & Ed). clear NL NB.
    assert (E : data = match ls with [] => None | _ => Some ls end) by exact Ed. clear Ed.
    destruct (lineStartingWith (lit "+CPIN") ls) as [x|] eqn:S.
    + assert (data = Some ls) as -> by (destruct ls; [discriminate S|exact E]). rewrite S in H. cbn in H.
      eapply (Known (Some x) l); [| | |exact T|exact H]; cbn [lines_in pin_in_time].
      * destruct (starting_some _ _ _ S) as (b & a & E' & Sx & _). exists x. split; [rewrite E'; apply in_or_app; right; left; reflexivity|exact Sx].
      * discriminate.
      * intros x' [= <-]. apply starting_some. exact S.
    + apply N.
      * intros (x & I & Sx). exact (starting_none _ _ S x I Sx).
      * destruct data as [d|]; [|exact H]. destruct ls; [discriminate E|]. injection E as ->. rewrite S in H. exact H.
Qed.

Lemma bl_reset pin : blamed (failure pin) (connect_reset pin).
Proof.
  assert (Gu : grows (unlockSim pin)) by (unfold unlockSim; gr).
  unfold connect_reset. apply bl_bind; [apply mono_failure| | |intro done].
  - gr.
  - (* ATZ, and again after a refusal *)
    intros w e w' H. unfold try_except, mbind at 1, on_CommandError in H. destruct (write (lit "ATZ") w) as [[ls|y] w1|w1] eqn:W; [discriminate H| |discriminate H].
    apply write_err in W as (l & r & T & NB & O). destruct (is_CommandError y) eqn:Y.
    + set (P := fun (l : list (str * option reply)) c r e => failure pin (ask (lit "ATZ") (Lines []) :: l) c r e).
      assert (B : blamed P (write_noparse (lit "AT+CMEE=1") ;;; unlockSim pin ;;; write (lit "ATZ") ;;; ret true)).
      { assert (Mp : mono P).
        { intros l0 l1 c1 r1 e1 F. unfold P in *. destruct F as [before c r2 e2 O2 D2 Z2 C2 S2| | | | |]; [|eapply fl_no_line; eauto|eapply fl_no_number; eauto|eapply fl_no_memories; eauto|eapply fl_bare_memories; eauto|eapply fl_no_pin; eauto].
          apply fl_answer; auto. intros -> R. left. reflexivity. }
        assert (Wk : forall l c r e, failure pin l c r e -> P l c r e) by (intros l1 c1 r1 e1 F; exact (mono_failure pin [_] l1 c1 r1 e1 F)).
        apply bl_bind; [exact Mp|gr| |intros _]; [eapply bl_weaken; [exact Wk|bl]|].
        apply bl_bind; [exact Mp|exact Gu| |intros _]; [eapply bl_weaken; [exact Wk|apply bl_unlock]|].
        apply bl_bind; [exact Mp|gr| |intros _; apply bl_ret]. apply bl_write. intros l1 r1 e1 N1 O1. unfold P. apply fl_answer; [exact O1| | | |]; intros X; try (exfalso; revert X; apply mem_not; reflexivity); try discriminate X.
        intros _. left. reflexivity. }
      destruct (B w1 e w' H) as (l1 & c1 & r1 & T1 & F1). exists ((l ++ [ask (lit "ATZ") r]) ++ l1), c1, r1. split; [rewrite T1, T, <- !app_assoc; reflexivity|].
      destruct F1 as [before c r2 e2 O2 D2 Z2 C2 S2| | | | |]; [|eapply fl_no_line; eauto|eapply fl_no_number; eauto|eapply fl_no_memories; eauto|eapply fl_bare_memories; eauto|eapply fl_no_pin; eauto].
      apply fl_answer; auto. intros -> _. unfold sent. rewrite !map_app. apply in_or_app. left. apply in_or_app. right. left. reflexivity.
    + injection H as <- <-. exists l, (lit "ATZ"), r. split; [exact T|]. apply fl_answer; [exact O| | | |]; intros X; try (exfalso; revert X; apply mem_not; reflexivity); try discriminate X.
      intro R. pose proof (refusal_command _ _ _ R O). congruence.
  - apply bl_bind; [apply mono_failure|gr| |intros _]; [bl|].
    apply bl_bind; [apply mono_failure|gr| |intros _].
    { apply (bl_try (failure pin) (fun l c r e => is_CommandError e = false -> failure pin l c r e)); [apply mono_failure|gr| |auto|apply bl_ret].
      assert (Mq : mono (fun l c r e => is_CommandError e = false -> failure pin l c r e)) by (intros l0 l c r e F C; apply mono_failure; auto).
      apply bl_after; [exact Mq|intros l r e NB O C; eapply answer_disp; eauto|].
      intros ls G. apply bo_lift.
      - intros e l E _. eapply number_fails; [left; reflexivity|exact G|exact E].
      - intros v _. apply bo_blamed. destruct (negb _); [|apply bl_ret]. unfold forget. apply bl_bind; [exact Mq|gr| |intros _; apply bl_ret]. apply bl_write. intros l r e NB O C. eapply answer_disp; eauto. }
    apply bl_bind; [apply mono_failure|gr| |intros _]; [bl|]. destruct done; [apply bl_ret|apply bl_unlock].
Qed.
Lemma bl_commands pin : blamed (failure pin) supportedCommands.
Proof.
  unfold supportedCommands. apply (bl_try (failure pin) (fun l c r e => is_CommandError e = false -> failure pin l c r e)); [apply mono_failure|gr| |auto|apply bl_ret].
  apply bl_after; [intros l0 l c r e F C; apply mono_failure; auto|intros l r e NB O C; eapply answer_disp; eauto|].
  intros ls G. apply bo_blamed. repeat match goal with |- blamed _ (match ?x with _ => _ end) => destruct x end; apply bl_ret.
Qed.
Lemma good_first ls : good_answer ls -> exists l ls', ls = l :: ls'.
Proof. intros (b & x & -> & _). destruct b; cbn; eauto. Qed.
Lemma bl_hint pin commands : blamed (failure pin) (connect_hint commands).
Proof.
  unfold connect_hint. apply bl_bind; [apply mono_failure|gr| |intros [hint enable]].
  { unfold forget. bl. }
  apply bl_bind; [apply mono_failure|gr| |intros h].
  - destruct enable; [|apply bl_ret].
    apply (bl_query (failure pin) (lit "AT+WIND?") (lineStartingWith (lit "+WIND:")) (fun wind => match wind with None => ret hint | Some w => do v <- lift (int_from_7 w); (if negb (v =? 50) then forget (write (lit "AT+WIND=50")) else ret tt) ;;; ret 2 end)); [apply mono_failure|intros l r e NB O C; eapply answer_disp; eauto|apply bl_ret|].
    intros ls G. apply bo_lift.
    + intros e l E. eapply number_fails; [right; left; reflexivity|exact G|exact E].
    + intros v _. apply bo_blamed. unfold forget. bl.
  - destruct (h =? 0); [|apply bl_ret]. apply bl_bind; [apply mono_failure|unfold manufacturer, query_first, first_line; gr| |intros man].
    + unfold manufacturer, query_first. apply bl_after; [apply mono_failure|apply answer_fails; reflexivity|]. intros ls G. destruct (good_first ls G) as (x & xs & ->). apply bo_blamed, bl_ret.
    + destruct (str_eqb _ _); [apply bl_ret|]. apply bl_caught; [reflexivity|apply bl_ret].
Qed.
Lemma bl_table pin commands hint : blamed (failure pin) (connect_table commands hint).
Proof. unfold connect_table. bl. Qed.
Lemma bl_sms pin : blamed (failure pin) connect_sms.
Proof.
  assert (Gg : grows get_smsc) by (unfold get_smsc; gr). assert (Gs : forall n, grows (set_smsc n)) by (intro n; unfold set_smsc; gr).
  unfold connect_sms. apply bl_bind; [apply mono_failure|gr|apply bl_get|intro m].
  apply bl_bind; [apply mono_failure|gr| |intros _]. { apply bl_write. apply answer_fails. destruct (smsTextMode m); reflexivity. }
  apply bl_bind; [apply mono_failure| | |intros n].
  - destruct (smscNumber m); [gr|exact Gg].
  - destruct (smscNumber m) as [n|]; [|apply bl_smsc]. bl.
  - apply bl_bind; [apply mono_failure|gr| |intros _]; [bl|]. apply bl_bind; [apply mono_failure|gr| |intros _]; [bl|].
    destruct n as [n|]; [|apply bl_ret]. apply bl_bind; [apply mono_failure|exact Gg|apply bl_smsc|intros now]. destruct (negb _); [apply bl_set_smsc|apply bl_ret].
Qed.
Lemma no_space s : after_space s = None -> ~ In 32 s.
Proof. induction s as [|c s IH]; cbn; [auto|]. destruct (Z.eqb_spec c 32) as [->|N]; [discriminate|]. intros E [X|X]; [congruence|exact (IH E X)]. Qed.
Lemma memories_text items : lit "AT+CPMS=" ++ join (lit ",") (map (fun i => match first_preferred i with Some m => m | None => [] end) items) <> lit "AT+CPMS=?".
Proof.
  intro E. change (lit "AT+CPMS=?") with (lit "AT+CPMS=" ++ [63]) in E. apply app_inv_head in E.
  assert (P : forall i, match first_preferred i with Some m => m | None => [] end = [] \/ exists r, match first_preferred i with Some m => m | None => [] end = 34 :: r).
  { intro i. destruct (first_preferred i) as [m|] eqn:F; [|left; reflexivity]. right. apply find_some in F as [I _]. destruct I as [<-|[<-|[<-|[]]]]; eexists; reflexivity. }
  destruct items as [|i items]; [discriminate E|]. cbn [map] in E. destruct (P i) as [X|[r X]]; rewrite X in E; destruct items; discriminate E.
Qed.
Lemma bl_memory pin : blamed (failure pin) connect_memory.
Proof.
  unfold connect_memory.
  match goal with |- blamed _ (mbind _ ?k) => apply (bl_query (failure pin) (lit "AT+CPMS=?") (lineStartingWith (lit "+CPMS")) k) end; [apply mono_failure|intros l r e NB O C; eapply answer_disp; eauto|apply bl_modify|].
  intros ls G. destruct (lineStartingWith (lit "+CPMS") ls) as [x|] eqn:S.
  - destruct (after_space x) as [s|] eqn:A.
    + apply bo_blamed. destruct (existsb _ _); [apply bl_modify|]. apply bl_bind; [apply mono_failure|gr| |intros _]; [bl|].
      unfold forget. apply bl_bind; [apply mono_failure|gr| |intros _; apply bl_ret]. apply bl_write. intros l r e NB O.
      apply fl_answer; [exact O| | | |]; intros X; exfalso.
      * revert X. apply mem_not. match goal with |- mem_str (lit "AT+CPMS=" ++ ?x) _ = _ => assert (Hx : lit "AT+CPMS=" ++ x <> lit "AT+CPMS=?") by apply memories_text; revert Hx; generalize x end.
        intros y Hx. destruct y as [|c [|d y]]; [reflexivity| |]; [change ((c =? 63) && true || false = false)|change ((c =? 63) && false || false = false)]; destruct (Z.eqb_spec c 63) as [->|Nc]; try reflexivity. exfalso. apply Hx. reflexivity.
      * discriminate X.
      * discriminate X.
      * discriminate X.
    + apply bo_raise. intro l. eapply fl_bare_memories; [exact G|apply starting_some; exact S|apply no_space; exact A].
  - apply bo_raise. intro l. apply fl_no_memories; [exact G|apply starting_none; exact S].
Qed.
Lemma bl_notifications pin : blamed (failure pin) connect_notifications.
Proof.
  unfold connect_notifications. apply bl_bind; [apply mono_failure|gr|apply bl_get|intro m].
  apply bl_bind; [apply mono_failure|gr| |intros _]. { destruct (smsReadSupported m); [|apply bl_ret]. unfold forget. apply bl_caught; [reflexivity|apply bl_modify]. }
  apply bl_bind; [apply mono_failure|gr| |intros ok]; [apply bl_caught; [reflexivity|apply bl_ret]|].
  apply bl_bind; [apply mono_failure|gr| |intros _].
  { destruct ok; [|apply bl_modify]. apply bl_bind; [apply mono_failure|gr|apply bl_modify|intros _]. apply bl_bind; [apply mono_failure|gr| |intros c; apply bl_modify]. apply bl_caught; [reflexivity|apply bl_ret]. }
  unfold forget. bl.
Qed.
Theorem connect_fails pin m sc e w : connect pin (start m sc) = Done (Err e) w -> exists l c r, asked (trace w) = l ++ [ask c r] /\ failure pin l c r e.
Proof.
  assert (B : blamed (failure pin) (connect pin)).
  { unfold connect. apply bl_bind; [apply mono_failure|gr|apply bl_modify|intros _].
    apply bl_bind; [apply mono_failure|unfold connect_reset, unlockSim; gr|apply bl_reset|intros _].
    apply bl_bind; [apply mono_failure|unfold supportedCommands; gr|apply bl_commands|intros cs].
    apply bl_bind; [apply mono_failure|unfold connect_hint, manufacturer, query_first, first_line; gr|apply bl_hint|intros h].
    apply bl_bind; [apply mono_failure|unfold connect_table; gr|apply bl_table|intros _].
    apply bl_bind; [apply mono_failure|gr| |intros _]; [bl|].
    apply bl_bind; [apply mono_failure|unfold connect_sms, get_smsc, set_smsc; gr|apply bl_sms|intros _].
    apply bl_bind; [apply mono_failure|unfold connect_memory; gr|apply bl_memory|intros _].
    apply bl_notifications. }
  intro H. destruct (B _ _ _ H) as (l & c & r & T & F). exists l, c, r. auto.
Qed.
