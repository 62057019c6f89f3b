(** A call or a handler on its own does what the methods do. *)
From Verif Require Import Base RegexModel UtilModel ModemCore ModemSpec WriteProofs MonadProofs SmsModel SendSpec SendProofs CallModel UssdModel UssdSpec UssdProofs TrackSpec CoverageSpec ReadProofs CallSpec MeetModel MeetSpec MeetProofs.

Section Attr.
Context {R : Type} (k : kind R).
Lemma meets_new ev resp (h : shared R) : meets ev resp h -> meets (Some false) resp (new_event h) /\ sh_event (new_event h) = Some (sh_made h).
Proof.
  intros (E & F & _). split; [|reflexivity]. split; [exact E|]. split; [eapply Forall_impl; [|exact F]; cbn; intros; lia|].
  exists (sh_made h). cbn. split; auto. split; [lia|]. split; [discriminate|]. intro I. rewrite Forall_forall in F. apply F in I. lia.
Qed.
Lemma meets_none ev resp (h : shared R) : meets ev resp h -> meets None resp (no_event h).
Proof. intros (E & F & _). split; [exact E|]. split; [exact F|reflexivity]. Qed.
Lemma handler_waiting j b resp (h : shared R) c : meets (Some b) resp h ->
  match c with
  | Ok r => exists h', handler_alone j (Ok r) h Test h' (Handled (Ok tt)) /\ meets (Some true) (Some r) h'
  | Err e => exists h', handler_alone j (Err e) h Test h' (Handled (Err e)) /\ meets (Some b) resp h'
  end.
Proof.
  intros (E & F & e & Ee & L & B). destruct c as [r|er].
  - exists (fire e (put_response r h)). split.
    + eapply ha_go; [cbn; rewrite Ee; reflexivity|]. eapply ha_go; [reflexivity|]. eapply ha_go; [cbn; rewrite Ee; reflexivity|]. apply ha_nil.
    + split; [reflexivity|]. split; [constructor; auto|]. exists e. cbn. split; auto. split; auto. split; auto.
  - exists h. split.
    + eapply ha_go; [cbn; rewrite Ee; reflexivity|]. eapply ha_go; [reflexivity|]. apply ha_nil.
    + split; auto. split; auto. exists e. auto.
Qed.
Lemma handler_idle j resp (h : shared R) c : meets None resp h -> handler_alone j c h Test h (Handled (Ok tt)).
Proof. intros (E & F & N). eapply ha_go; [cbn; rewrite N; reflexivity|]. apply ha_nil. Qed.
Lemma call_wait i ev resp (h : shared R) x : meets ev resp h -> after_write k x = Await ->
  exists h', call_alone k i h Begin [x] h' (Waiting (sh_made h)) /\ meets (Some false) resp h' /\ sh_event h' = Some (sh_made h) /\ sh_calls h' = sh_calls h.
Proof.
  intros M A. destruct (meets_new _ _ _ M) as [M' E]. exists (new_event h). split; auto. eapply ca_go; [reflexivity|]. apply ca_write. rewrite A. eapply ca_go; [reflexivity|]. apply ca_nil.
Qed.
Lemma call_cancel i ev resp (h : shared R) x y : meets ev resp h -> after_write k x = Cancel y ->
  exists h', call_alone k i h Begin [x] h' (Over (weaken y)) /\ meets None resp h' /\ sh_calls h' = sh_calls h.
Proof.
  intros M A. destruct (meets_new _ _ _ M) as [M' E]. exists (no_event (new_event h)). split; [|split; [eapply meets_none; eauto|reflexivity]].
  eapply ca_go; [reflexivity|]. apply ca_write. rewrite A. eapply ca_go; [reflexivity|]. apply ca_nil.
Qed.
Lemma call_woken i e r (h : shared R) : meets (Some true) (Some r) h -> sh_event h = Some e ->
  exists h', call_alone k i h (Waiting e) [] h' (Over (Ok (Some r))) /\ meets None (Some r) h' /\ sh_calls h' = match k_key k r with Some id => zset (sh_calls h) id i | None => sh_calls h end.
Proof.
  intros (E & F & e' & Ee & L & B) X. rewrite Ee in X. injection X as ->. assert (In e (sh_set h)) as I by (apply B; auto). apply existsb_in in I.
  exists (match k_key k r with Some id => enter id i (no_event h) | None => no_event h end). split.
  - eapply ca_go; [cbn; rewrite I; reflexivity|]. eapply ca_go; [reflexivity|]. eapply ca_go; [cbn; rewrite <- E; reflexivity|]. destruct (k_key k r); [eapply ca_go; [reflexivity|]|]; apply ca_nil.
  - destruct (k_key k r); (split; [|reflexivity]); (split; [exact E|split; [exact F|reflexivity]]).
Qed.
Lemma call_nothing i e (h : shared R) : meets (Some true) None h -> sh_event h = Some e ->
  exists h', call_alone k i h (Waiting e) [] h' (Over (k_none k)) /\ meets None None h' /\ sh_calls h' = sh_calls h.
Proof.
  intros (E & F & e' & Ee & L & B) X. rewrite Ee in X. injection X as ->. assert (In e (sh_set h)) as I by (apply B; auto). apply existsb_in in I.
  exists (no_event h). split; [|split; [split; [exact E|split; [exact F|reflexivity]]|reflexivity]].
  eapply ca_go; [cbn; rewrite I; reflexivity|]. eapply ca_go; [reflexivity|]. eapply ca_go; [cbn; rewrite <- E; reflexivity|]. apply ca_nil.
Qed.
Lemma call_gives_up i e resp (h : shared R) : meets (Some false) resp h -> sh_event h = Some e ->
  exists h', call_alone k i h (Waiting e) [] h' (Over (Err (TimeoutException None))) /\ meets None resp h' /\ sh_calls h' = sh_calls h.
Proof.
  intros (E & F & e' & Ee & L & B) X. rewrite Ee in X. injection X as ->.
  assert (N : existsb (Nat.eqb e) (sh_set h) = false). { destruct (existsb (Nat.eqb e) (sh_set h)) eqn:Q; auto. apply existsb_in in Q. apply B in Q. discriminate. }
  exists (no_event h). split; [|split; [split; [exact E|split; [exact F|reflexivity]]|reflexivity]].
  apply ca_give_up; auto. eapply ca_go; [reflexivity|]. apply ca_nil.
Qed.
End Attr.

Lemma ussd_handler_is lines m sc j h x w : meets (ussdEvent m) (ussdResponse m) h -> handleUssd lines (start m sc) = Done x w ->
  exists h', handler_alone j (parseCusdResponse lines) h Test h' (Handled x) /\ meets (ussdEvent (dev w)) (ussdResponse (dev w)) h'.
Proof.
  intros M H. unfold handleUssd in H. unfold mbind at 1, get in H. cbn [dev start] in H. destruct (ussdEvent m) as [b|] eqn:E.
  - pose proof (handler_waiting j b _ h (parseCusdResponse lines) M) as X. unfold mbind, lift, modify in H. destruct (parseCusdResponse lines) as [r|e]; destruct X as (h' & A & M').
    + injection H as <- <-. exists h'. auto.
    + injection H as <- <-. exists h'. cbn. rewrite E. auto.
  - injection H as <- <-. exists h. cbn [dev start]. rewrite E. split; auto. eapply handler_idle; eauto.
Qed.
Lemma ussd_start_is s m sc i h r w : meets (ussdEvent m) (ussdResponse m) h -> sendUssd_start s (start m sc) = Done r w ->
  exists x h', exchange (ussd_command s) [13] (trace w) x /\ meets (ussdEvent (dev w)) (ussdResponse (dev w)) h' /\
    call_alone ussd_kind i h Begin [x] h' (match r with Ok None => Waiting (sh_made h) | Ok (Some u) => Over (Ok (Some u)) | Err e => Over (Err e) end) /\
    (r = Ok None -> sh_event h' = Some (sh_made h)).
Proof.
  intros M H. unfold sendUssd_start in H. unfold mbind at 1, modify in H. unfold mbind at 1, try_except in H.
  change (lit "AT+CUSD=1,""" ++ s ++ lit """,15") with (ussd_command s) in H.
  set (w0 := mk_world (set_ussdEvent (Some false) (dev (start m sc))) (script (start m sc)) (trace (start m sc))) in H.
  pose proof (keeps_write (fun m => (ussdEvent m, ussdResponse m)) (ussd_command s) CR true ltac:(reflexivity) w0) as K. unfold write in H.
  destruct (write_with (ussd_command s) CR true w0) as [[ls|e] w1|w1] eqn:W; [| |discriminate]; apply exchange_of in W as (evs & T & X); cbn [start trace app] in T; cbn in K; injection K as K1 K2.
  - assert (Wt : k_ack ussd_kind ls = None -> ret None w1 = Done r w -> exists x h', exchange (ussd_command s) [13] (trace w) x /\ meets (ussdEvent (dev w)) (ussdResponse (dev w)) h' /\
      call_alone ussd_kind i h Begin [x] h' (match r with Ok None => Waiting (sh_made h) | Ok (Some u) => Over (Ok (Some u)) | Err e => Over (Err e) end) /\ (r = Ok None -> sh_event h' = Some (sh_made h))).
    { intros A Q. unfold ret in Q. injection Q as <- <-. destruct (call_wait ussd_kind i _ _ h (Ok ls) M) as (h' & C & M' & Eh & _); [cbn [after_write]; rewrite A; auto|].
      exists (Ok ls), h'. rewrite T, K1, K2. auto. }
    destruct ls as [|l1 [|l2 ls]]; [apply Wt; [reflexivity|exact H]..|].
    destruct (lineStartingWith (lit "+CUSD") (l1 :: l2 :: ls)) as [l|] eqn:L; [|apply Wt; [cbn [k_ack ussd_kind]; rewrite L; auto|exact H]].
    destruct (call_cancel ussd_kind i _ _ h (Ok (l1 :: l2 :: ls)) (parseCusdResponse (l1 :: l2 :: ls)) M) as (h' & C & M' & _); [cbn [after_write k_ack ussd_kind]; rewrite L; auto|].
    exists (Ok (l1 :: l2 :: ls)), h'. unfold mbind, modify, lift, ret in H. destruct (parseCusdResponse (l1 :: l2 :: ls)) as [u|e]; injection H as <- <-; cbn [dev trace]; rewrite T; (split; [exact X|]); cbn [ussdEvent set_ussdEvent ussdResponse];
      (split; [change (ussdResponse (set_ussdEvent None (dev w1))) with (ussdResponse (dev w1)); rewrite K2; exact M'|]); (split; [exact C|discriminate]).
  - unfold mbind, modify, raise in H. injection H as <- <-. cbn [dev trace]. rewrite T. destruct (call_cancel ussd_kind i _ _ h (Err e) (Err e) M eq_refl) as (h' & C & M' & _).
    exists (Err e), h'. split; [exact X|]. split; [cbn; rewrite K2; exact M'|]. split; [exact C|discriminate].
Qed.
Lemma ussd_finish_is m sc i h e r w : meets (ussdEvent m) (ussdResponse m) h -> sh_event h = Some e -> sendUssd_finish (start m sc) = Done r w ->
  exists h', call_alone ussd_kind i h (Waiting e) [] h' (Over r) /\ meets (ussdEvent (dev w)) (ussdResponse (dev w)) h'.
Proof.
  intros M E H. unfold sendUssd_finish in H. unfold mbind at 1, get in H. cbn [dev start] in H. destruct (ussdEvent m) as [[]|] eqn:Ev.
  - unfold mbind, modify, ret in H. injection H as <- <-. cbn [dev start]. destruct (ussdResponse m) as [u|] eqn:Er.
    + destruct (call_woken ussd_kind i e u h M E) as (h' & C & M' & _). exists h'. split; [exact C|]. cbn. rewrite Er. exact M'.
    + destruct (call_nothing ussd_kind i e h M E) as (h' & C & M' & _). exists h'. split; [exact C|]. cbn. rewrite Er. exact M'.
  - unfold mbind, modify, raise in H. injection H as <- <-. cbn [dev start]. destruct (call_gives_up ussd_kind i e _ h M E) as (h' & C & M' & _). exists h'. split; [exact C|]. exact M'.
  - destruct M as (_ & _ & M). congruence.
Qed.

(** ** dial *)
(** what a notification says about the call *)
Definition announced (groups : option (list str)) (callId callType : Z) : res (Z * Z) :=
  match groups with
  | None => Ok (callId, callType)
  | Some [] => Err IndexError
  | Some [a] => match py_int 10 a with Ok id => Ok (id, 1) | Err e => Err e end
  | Some (a :: b :: _) => match py_int 10 a with Ok id => match py_int 10 b with Ok ty => Ok (id, ty) | Err e => Err e end | Err e => Err e end
  end.
Lemma dial_handler_is g id ty m sc j h x w : meets (dialEvent m) (dialResponse m) h -> handleCallInitiated g id ty (start m sc) = Done x w ->
  exists h', handler_alone j (announced g id ty) h Test h' (Handled x) /\ meets (dialEvent (dev w)) (dialResponse (dev w)) h'.
Proof.
  intros M H. unfold handleCallInitiated in H. unfold mbind at 1, get in H. cbn [dev start] in H. destruct (dialEvent m) as [b|] eqn:E.
  - pose proof (handler_waiting j b _ h (announced g id ty) M) as X. unfold mbind, modify, int_of, lift, raise, ret in H.
    destruct g as [[|a [|a' g]]|]; cbn [nth_error announced] in *.
    + injection H as <- <-. destruct X as (h' & A & M'). exists h'. cbn. rewrite E. auto.
    + destruct (py_int 10 a) as [v|e]; destruct X as (h' & A & M'); injection H as <- <-; exists h'; cbn; rewrite ?E; auto.
    + destruct (py_int 10 a) as [v|e]; [destruct (py_int 10 a') as [v'|e]|]; destruct X as (h' & A & M'); injection H as <- <-; exists h'; cbn; rewrite ?E; auto.
    + destruct X as (h' & A & M'); injection H as <- <-; exists h'; cbn; auto.
  - injection H as <- <-. exists h. cbn [dev start]. rewrite E. split; auto. eapply handler_idle; eauto.
Qed.
Definition dial_command (number : str) : str := lit "ATD" ++ number ++ lit ";".
Lemma dial_start_is number cb m sc i h r w : waitInit m = true -> meets (dialEvent m) (dialResponse m) h -> dial_start number cb (start m sc) = Done r w ->
  exists x h', (waitAtd m = true -> exchange (dial_command number) [13] (trace w) x) /\ (waitAtd m = false -> asked (trace w) = [(dial_command number ++ [13], None)] /\ x = Ok []) /\ meets (dialEvent (dev w)) (dialResponse (dev w)) h' /\
    call_alone dial_kind i h Begin [x] h' (match r with Ok _ => Waiting (sh_made h) | Err e => Over (Err e) end) /\
    (forall o, r = Ok o -> o = None /\ sh_event h' = Some (sh_made h)) /\ sh_calls h' = sh_calls h.
Proof.
  intros WI M H. unfold dial_start in H. unfold mbind at 1, get in H. cbn [dev start] in H. rewrite WI in H. unfold mbind at 1, modify in H. unfold mbind at 1, try_except, atd in H. unfold mbind at 1, get in H. cbn [dev start set_dialEvent waitAtd] in H.
  set (w0 := mk_world (set_dialEvent (Some false) m) sc []) in H. change (script (start m sc)) with sc in H. change (trace (start m sc)) with (@nil event) in H. fold w0 in H.
  change (lit "ATD" ++ number ++ lit ";") with (dial_command number) in H.
  destruct (waitAtd m) eqn:WA.
  - pose proof (keeps_write (fun m => (dialEvent m, dialResponse m)) (dial_command number) CR true ltac:(reflexivity) w0) as K. unfold write in H. unfold mbind at 1 in H.
    destruct (write_with (dial_command number) CR true w0) as [[ls|e] w1|w1] eqn:W; [| |discriminate]; apply exchange_of in W as (evs & T & X); cbn [start trace app] in T; cbn in K; injection K as K1 K2.
    + cbn in H. injection H as <- <-. destruct (call_wait dial_kind i _ _ h (Ok ls) M eq_refl) as (h' & C & M' & Eh & Ec).
      exists (Ok ls), h'. rewrite K1, K2. split; [rewrite T; auto|]. split; [discriminate|]. split; [exact M'|]. split; [exact C|]. split; [|exact Ec]. intros o Eo. injection Eo as <-. auto.
    + unfold mbind, modify, raise in H. injection H as <- <-. cbn [dev trace]. destruct (call_cancel dial_kind i _ _ h (Err e) (Err e) M eq_refl) as (h' & C & M' & Ec).
      exists (Err e), h'. split; [rewrite T; auto|]. split; [discriminate|]. split; [cbn; rewrite K2; exact M'|]. split; [exact C|]. split; [discriminate|exact Ec].
  - unfold write_nowait, ret in H. cbn in H. injection H as <- <-. destruct (call_wait dial_kind i _ _ h (Ok []) M eq_refl) as (h' & C & M' & Eh & Ec).
    exists (Ok []), h'. split; [discriminate|]. split; [intros _; split; auto; unfold paused; cbn; destruct (0 <? writeWait m); reflexivity|]. split; [exact M'|]. split; [exact C|]. split; [|exact Ec]. intros o Eo. injection Eo as <-. auto.
Qed.
Lemma dial_finish_is number cb m sc i h e r w : meets (dialEvent m) (dialResponse m) h -> sh_event h = Some e -> dial_finish number cb (start m sc) = Done r w ->
  exists h', meets (dialEvent (dev w)) (dialResponse (dev w)) h' /\
  match r with
  | Ok n => exists id ty, dialResponse m = Some (id, ty) /\ call_alone dial_kind i h (Waiting e) [] h' (Over (Ok (Some (id, ty)))) /\ sh_calls h' = zset (sh_calls h) id i /\
      activeCalls (dev w) = zset (activeCalls m) id n /\ nth_error (callObjs (dev w)) n = Some (new_call id ty number cb)
  | Err er => call_alone dial_kind i h (Waiting e) [] h' (Over (Err er)) /\ sh_calls h' = sh_calls h /\ activeCalls (dev w) = activeCalls m
  end.
Proof.
  intros M E H. unfold dial_finish in H. unfold mbind at 1, get in H. cbn [dev start] in H. destruct (dialEvent m) as [[]|] eqn:Ev.
  - destruct (dialResponse m) as [[id ty]|] eqn:Er.
    + unfold mbind, modify, add_call, get, ret in H. injection H as <- <-. cbn. rewrite Er. destruct (call_woken dial_kind i e (id, ty) h M E) as (h' & C & M' & Ec). exists h'.
      split; [exact M'|]. exists id, ty. repeat split; auto. unfold mbind. rewrite nth_error_app2, Nat.sub_diag; auto.
    + unfold mbind, modify, raise in H. injection H as <- <-. cbn. rewrite Er. destruct (call_nothing dial_kind i e h M E) as (h' & C & M' & Ec). exists h'. auto.
  - unfold mbind, modify, raise in H. injection H as <- <-. cbn. destruct (call_gives_up dial_kind i e _ h M E) as (h' & C & M' & Ec). exists h'. auto.
  - destruct M as (_ & _ & M). congruence.
Qed.
