(** Callbacks of the application: calls. *)
From Verif Require Import Base RegexModel RegexProofs UtilModel UtilProofs ModemCore ModemSpec WriteProofs MonadProofs SendSpec SendProofs TrackSpec TrackProofs CoverageSpec CoverageProofs QueryProofs LangProofs SmsModel StoreSpec ListSpec ListProofs ProcessProofs
  CallModel UssdModel NotifyModel PollSpec BookSpec BookProofs CallProofs CallFinal CallbackModel CallbackSpec CallbackProofs CallbackFinal.

Lemma in_zget t id n : NoDup (map fst t) -> In (id, n) t -> @zget nat t id = Some n.
Proof.
  intros Nd I. induction t as [|[j k] t IH]; [contradiction I|]. cbn in *. inversion Nd as [|? ? D1 D2]; subst. destruct I as [I|I].
  - injection I as -> ->. rewrite Z.eqb_refl. auto.
  - destruct (Z.eqb_spec j id) as [->|N]; auto. exfalso. apply D1. apply (in_map fst) in I. auto.
Qed.
(** ** The status callback *)
Lemma flag_run a n b c w : nth_error (callObjs (dev w)) n = Some c ->
  exists calls, at_call n (now_flagged b) (callObjs (dev w)) calls /\ calls = update (callObjs (dev w)) n (with_answered b) /\
    set_answered_with a n b w = if c_callback c then on_status a n (mk_world (set_callObjs calls (dev w)) (script w) (trace w ++ [EStatus n])) else Done (Ok tt) (mk_world (set_callObjs calls (dev w)) (script w) (trace w)).
Proof.
  intro H. exists (update (callObjs (dev w)) n (with_answered b)). split; [apply update_at|]. split; auto. unfold set_answered_with, change_call, mbind, modify, get. cbn [dev].
  rewrite (the_call_nth _ n (with_answered b c)) by (cbn; rewrite update_nth, Nat.eqb_refl, H; auto). cbn [c_callback with_answered]. destruct (c_callback c); auto.
Qed.
Theorem answered_calls_back a id n c w : sound_book (book_of (dev w)) -> In (id, n) (activeCalls (dev w)) -> nth_error (callObjs (dev w)) n = Some c -> c_callback c = true ->
  exists w1, flagged n true w w1 /\ handleCallAnswered_with a None id w = on_status a n w1.
Proof.
  intros [Nd Sd] I Hc Cb. unfold handleCallAnswered_with, answered_by_id_with, mbind, get. rewrite (in_zget (activeCalls (dev w)) _ _ Nd I). destruct (flag_run a n true c w Hc) as (calls & A & _ & ->). rewrite Cb.
  eexists. split; [|reflexivity]. exists calls. auto.
Qed.
Definition ended_rest (id : Z) : M unit := do m <- get;
  match zget (activeCalls m) id with
  | Some n => change_call n (with_active false) ;;; modify (fun m => set_activeCalls (zdel (activeCalls m) id) m)
  | None => raise KeyError
  end.
Lemma ended_eq a id n f w : id <> 0 -> zget (activeCalls (dev w)) id = Some n -> handleCallEnded_with a None (Some id) f w = mbind (set_answered_with a n false) (fun _ => ended_rest id) w.
Proof. intros N0 G. unfold handleCallEnded_with, mbind at 1, ret at 1. destruct (Z.eqb_spec id 0); [contradiction|]. unfold mbind at 1, get at 1. rewrite G. reflexivity. Qed.
Lemma rest_closes id w : closes id w (ended_rest id w).
Proof.
  unfold ended_rest, mbind at 1, get at 1. destruct (zget (activeCalls (dev w)) id) as [k|] eqn:G.
  - eapply (cl_call id w k (update (callObjs (dev w)) k (with_active false)) (zdel (activeCalls (dev w)) id)); try reflexivity; [apply zget_in; auto|apply update_at|apply zdel_without].
  - apply cl_gone. apply zget_none. auto.
Qed.
Theorem ended_calls_back a id n c f w : sound_book (book_of (dev w)) -> id <> 0 -> In (id, n) (activeCalls (dev w)) -> nth_error (callObjs (dev w)) n = Some c -> c_callback c = true ->
  exists w1, flagged n false w w1 /\
    match on_status a n w1 with
    | Done (Ok _) w2 => closes id w2 (handleCallEnded_with a None (Some id) f w)
    | o => handleCallEnded_with a None (Some id) f w = o
    end.
Proof.
  intros [Nd Sd] N0 I Hc Cb. rewrite (ended_eq a id n f w N0 (in_zget (activeCalls (dev w)) _ _ Nd I)).
  destruct (flag_run a n false c w Hc) as (calls & A & _ & E). rewrite Cb in E.
  set (w1 := mk_world (set_callObjs calls (dev w)) (script w) (trace w ++ [EStatus n])) in *. exists w1. split; [exists calls; auto|]. unfold mbind. rewrite E.
  destruct (on_status a n w1) as [[[]|e] w2|w2]; auto. apply rest_closes.
Qed.
(** callbacks that leave the calls alone: as without them *)
Theorem ended_as_before a id n c f w w' : sound_book (book_of (dev w)) -> id <> 0 -> In (id, n) (activeCalls (dev w)) -> nth_error (callObjs (dev w)) n = Some c -> c_callback c = true ->
  leaves_calls (on_status a n) -> handleCallEnded_with a None (Some id) f w = Done (Ok tt) w' ->
  at_call n now_ended (callObjs (dev w)) (callObjs (dev w')) /\ without id (activeCalls (dev w)) (activeCalls (dev w')).
Proof.
  intros Sd N0 I Hc Cb Lc H. destruct (ended_calls_back a id n c f w Sd N0 I Hc Cb) as (w1 & (calls & A & D & _) & R). rewrite H in R. destruct (Lc w1) as [L1 L2].
  destruct (on_status a n w1) as [[[]|e] w2|w2]; try discriminate R. cbn [last_of] in *. rewrite D in L1, L2. cbn in L1, L2. inversion R as [k calls' table w0 I' A' W' D' S' T' E0|].
  rewrite D'. cbn. rewrite L2 in *. split; auto. assert (k = n).
  { destruct Sd as [Nd _]. pose proof (in_zget (activeCalls (dev w)) _ _ Nd I). pose proof (in_zget (activeCalls (dev w)) _ _ Nd I'). congruence. }
  subst k. rewrite L1 in A'. exact (at_then _ _ _ _ _ _ A A').
Qed.
(** a callback that fails: the call stays in the table, and active *)
Theorem ended_interrupted a id n c f w : sound_book (book_of (dev w)) -> id <> 0 -> In (id, n) (activeCalls (dev w)) -> nth_error (callObjs (dev w)) n = Some c -> c_callback c = true ->
  leaves_calls (on_status a n) -> abrupt (handleCallEnded_with a None (Some id) f w) ->
  let m := dev (last_of (handleCallEnded_with a None (Some id) f w)) in
  at_call n (now_flagged false) (callObjs (dev w)) (callObjs m) /\ activeCalls m = activeCalls (dev w).
Proof.
  intros Sd N0 I Hc Cb Lc H m. destruct (ended_calls_back a id n c f w Sd N0 I Hc Cb) as (w1 & (calls & A & D & _) & R). unfold m. clear m. destruct (Lc w1) as [L1 L2].
  destruct (on_status a n w1) as [[[]|e] w2|w2]; cbn [last_of] in L1, L2; rewrite D in L1, L2; cbn in L1, L2.
  - inversion R as [k calls' table w0 I' A' W' D' S' T' E|G E]; [rewrite <- E in H; destruct (H _ eq_refl)|]. exfalso. apply G. rewrite L2. apply (in_map fst) in I. auto.
  - rewrite R. cbn. rewrite L1, L2. auto.
  - rewrite R. cbn. rewrite L1, L2. auto.
Qed.

(** ** Hanging up from the status callback *)
Lemma hush_run c n w : nth_error (callObjs (dev w)) n = Some c ->
  (if c_incoming c then change_call n (with_ringing false) else ret tt) w = Done (Ok tt) (mk_world (set_callObjs (update (callObjs (dev w)) n hushed) (dev w)) (script w) (trace w)).
Proof.
  intro Hc. destruct (c_incoming c) eqn:I.
  - unfold change_call, modify. rewrite (update_ext_at _ n (with_ringing false) hushed c Hc); auto. unfold hushed, with_ringing. rewrite I. auto.
  - rewrite (update_id _ n hushed c Hc); [destruct w as [m s t]; destruct m; reflexivity|]. destruct c; cbn in I; subst; reflexivity.
Qed.
Definition quiet_hush (w : world) (n : nat) : world := mk_world (set_callObjs (update (callObjs (dev w)) n hushed) (dev w)) (script w) (trace w).
Definition freed (n : nat) : M unit := do m <- get;
  match zget (activeCalls m) (c_id (the_call m n)) with
  | Some _ => modify (fun m => set_activeCalls (zdel (activeCalls m) (c_id (the_call m n))) m)
  | None => ret tt
  end.
Lemma hangup_eq a n c w : nth_error (callObjs (dev w)) n = Some c -> hangup_with a n w =
  if c_active c then mbind (write (lit "ATH")) (fun _ => set_answered_with a n false ;;; change_call n (with_active false) ;;; freed n) (quiet_hush w n) else freed n (quiet_hush w n).
Proof.
  intro Hc. unfold hangup_with. unfold mbind at 1, get at 1. rewrite (the_call_nth _ _ _ Hc). rewrite (bind_run _ _ _ _ _ (hush_run c n w Hc)). fold (quiet_hush w n). fold (freed n).
  destruct (c_active c); [|reflexivity]. rewrite bind_assoc. apply bind_ext; auto. intros _ w1. rewrite bind_assoc. apply bind_ext; auto.
Qed.
Lemma hushed_nth c n w : nth_error (callObjs (dev w)) n = Some c -> nth_error (callObjs (dev (quiet_hush w n))) n = Some (hushed c).
Proof. intro H. cbn. rewrite update_nth, Nat.eqb_refl, H. auto. Qed.
Lemma only_refl n m : only_flags n m m. Proof. repeat split; auto. intros k c H. exists c. auto. Qed.
Lemma only_trans n m1 m2 m3 : only_flags n m1 m2 -> only_flags n m2 m3 -> only_flags n m1 m3.
Proof.
  intros (A1 & A2 & A3) (B1 & B2 & B3). split; [congruence|]. split; [congruence|]. intros k c H. destruct (A3 _ _ H) as (c1 & H1 & X1 & X2 & X3 & X4). destruct (B3 _ _ H1) as (c2 & H2 & Y1 & Y2 & Y3 & Y4).
  exists c2. split; auto. repeat split; try congruence. intro N. rewrite Y1, X1; auto.
Qed.
Lemma only_update n f m : (forall c, c_id (f c) = c_id c /\ c_active (f c) = c_active c /\ c_callback (f c) = c_callback c) -> only_flags n m (set_callObjs (update (callObjs m) n f) m).
Proof.
  intro H. split; auto. split; [apply update_length|]. intros k c E. cbn. rewrite update_nth. destruct (Nat.eqb_spec n k) as [->|N].
  - rewrite E. cbn. exists (f c). split; auto. split; [congruence|]. apply H.
  - exists c. repeat split; auto.
Qed.
Lemma only_wait n v m : only_flags n m (set_writeWait v m). Proof. split; auto. split; auto. intros k c H. exists c. auto. Qed.
Lemma hangup_steps a n c w : nth_error (callObjs (dev w)) n = Some c -> c_active c = true -> c_callback c = true ->
  match write (lit "ATH") (quiet_hush w n) with
  | Done (Ok _) w0 => exists w1 c1, only_flags n (dev w) (dev w1) /\ nth_error (callObjs (dev w1)) n = Some c1 /\ c_answered c1 = false /\ script w1 = script w0 /\ trace w1 = trace w0 ++ [EStatus n] /\
      hangup_with a n w = mbind (on_status a n) (fun _ => change_call n (with_active false) ;;; freed n) w1
  | Done (Err e) w0 => only_flags n (dev w) (dev w0) /\ hangup_with a n w = Done (Err e) w0
  | Stuck w0 => only_flags n (dev w) (dev w0) /\ hangup_with a n w = Stuck w0
  end.
Proof.
  intros Hc Ac Cb. rewrite (hangup_eq _ _ _ _ Hc), Ac. assert (Q : only_flags n (dev w) (dev (quiet_hush w n))) by (apply only_update; auto).
  pose proof (keeps_write calls_of (lit "ATH") CR true (fun _ _ => eq_refl) (quiet_hush w n)) as K. unfold write.
  assert (O1 : only_flags n (dev w) (dev (last_of (write_with (lit "ATH") CR true (quiet_hush w n))))).
  { injection K as K1 K2. destruct Q as (Q1 & Q2 & Q3). split; [rewrite K2; exact Q1|]. split; [rewrite K1; exact Q2|]. intros j d Hd. rewrite K1. apply Q3; auto. }
  destruct (write_with (lit "ATH") CR true (quiet_hush w n)) as [[ls|x] w1|w1] eqn:W; cbn [last_of] in *; [|split; auto; unfold mbind; rewrite W; auto|split; auto; unfold mbind; rewrite W; auto].
  destruct O1 as (E1 & E2 & E3). destruct (E3 _ _ Hc) as (c1 & Hc1 & _ & I1 & A1 & B1). destruct (flag_run a n false c1 w1 Hc1) as (calls & At & Eq & R). rewrite B1, Cb in R.
  set (w2 := mk_world (set_callObjs calls (dev w1)) (script w1) (trace w1 ++ [EStatus n])) in *. exists w2, (with_answered false c1).
  split. { eapply only_trans; [split; [exact E1|split; [exact E2|exact E3]]|]. cbn. rewrite Eq. apply only_update. auto. }
  split; [cbn; rewrite Eq, update_nth, Nat.eqb_refl, Hc1; auto|]. repeat (split; auto). unfold mbind. rewrite W, R. auto.
Qed.
Theorem hangs_forever e k : forall n c w, nth_error (callObjs (dev w)) n = Some c -> c_active c = true -> c_callback c = true ->
  let o := hangup_with (hanging e k) n w in abrupt o /\ only_flags n (dev w) (dev (last_of o)).
Proof.
  induction k as [|k IH]; intros n c w Hc Ac Cb o; unfold o; clear o; [pose proof (hangup_steps (hanging e 0) n c w Hc Ac Cb) as H|pose proof (hangup_steps (hanging e (S k)) n c w Hc Ac Cb) as H];
    (destruct (write (lit "ATH") (quiet_hush w n)) as [[ls|x] w0|w0]; [|destruct H as [O1 ->]; split; [apply abrupt_err|auto]|destruct H as [O1 ->]; split; [apply abrupt_stuck|auto]]);
    destruct H as (w1 & c1 & O1 & Hc1 & An & _ & _ & ->).
  - split; [apply abrupt_err|auto].
  - assert (Eq : on_status (hanging e (S k)) n w1 = hangup_with (hanging e k) n w1) by (cbn [on_status hanging]; unfold mbind at 1, get at 1; rewrite (the_call_nth _ _ _ Hc1), An; auto).
    unfold mbind. rewrite Eq. destruct (proj2 (proj2 O1) _ _ Hc) as (c2 & Hc2 & _ & _ & A2 & B2). rewrite Hc1 in Hc2. injection Hc2 as <-.
    destruct (IH n c1 w1 Hc1) as [Ab On]; [congruence|congruence|].
    destruct (hangup_with (hanging e k) n w1) as [[[]|x] w3|w3]; [destruct (Ab _ eq_refl)| |]; (split; [first [apply abrupt_err|apply abrupt_stuck]|]); cbn [last_of] in *; eapply only_trans; eauto.
Qed.

(** *** each time with a command *)
Lemma ok_good : good_line (lit "OK").
Proof. split; intro H; [destruct H as (a & b & H); vm_compute in H; do 3 (destruct a as [|? a]; try discriminate H)|discriminate H]. Qed.
Lemma asked_pause v : asked (pause v) = []. Proof. unfold pause. destruct (0 <? v); auto. Qed.
Theorem hangs_counted e k : forall j n c w, nth_error (callObjs (dev w)) n = Some c -> c_active c = true -> c_callback c = true -> script w = all_ok j ->
  let o := hangup_with (hanging e k) n w in
  if (j <=? k)%nat then (exists w', o = Stuck w') /\ asked (trace (last_of o)) = asked (trace w) ++ repeat ATH_OK j
  else (exists w', o = Done (Err e) w') /\ asked (trace (last_of o)) = asked (trace w) ++ repeat ATH_OK (S k).
Proof.
  induction k as [|k IH]; intros j n c w Hc Ac Cb Sc o; unfold o; clear o; [pose proof (hangup_steps (hanging e 0) n c w Hc Ac Cb) as H|pose proof (hangup_steps (hanging e (S k)) n c w Hc Ac Cb) as H];
    (destruct j as [|j]; [cbn [Nat.leb repeat]; unfold write, write_with, quiet_hush in H; cbn [script] in H; rewrite Sc in H; cbn [all_ok repeat write_on] in H; destruct H as [_ ->]; cbn; rewrite app_nil_r; eauto|]);
    change (all_ok (S j)) with (Lines ([] ++ [lit "OK"]) :: all_ok j) in Sc; rewrite (write_good _ (quiet_hush w n) [] (lit "OK") (all_ok j) Sc ok_good) in H; destruct H as (w1 & c1 & O1 & Hc1 & An & S1 & T1 & ->);
    (assert (A1 : asked (trace w1) = asked (trace w) ++ [ATH_OK]) by (rewrite T1; cbn [trace]; rewrite !asked_app; cbn; rewrite asked_pause; cbn; rewrite app_nil_r; auto)).
  - cbn [Nat.leb]. split; [eexists; reflexivity|]. exact A1.
  - assert (Eq : on_status (hanging e (S k)) n w1 = hangup_with (hanging e k) n w1) by (cbn [on_status hanging]; unfold mbind at 1, get at 1; rewrite (the_call_nth _ _ _ Hc1), An; auto).
    unfold mbind. rewrite Eq. destruct (proj2 (proj2 O1) _ _ Hc) as (c2 & Hc2 & _ & _ & A2 & B2). rewrite Hc1 in Hc2. injection Hc2 as <-.
    specialize (IH j n c1 w1 Hc1 ltac:(congruence) ltac:(congruence) S1). cbn [Nat.leb]. destruct (j <=? k)%nat; destruct IH as [(w' & ->) IH]; cbn [last_of] in *; rewrite IH, A1, <- app_assoc; eauto.
Qed.
(** *** once only *)
Lemma freed_run n c w : nth_error (callObjs (dev w)) n = Some c -> freed n w = Done (Ok tt) (mk_world (set_activeCalls (zdel (activeCalls (dev w)) (c_id c)) (dev w)) (script w) (trace w)).
Proof. intro H. apply (free_run n (c_id c) w). rewrite (the_call_nth _ _ _ H). auto. Qed.
Theorem once_fails id n c f w rest : sound_book (book_of (dev w)) -> id <> 0 -> In (id, n) (activeCalls (dev w)) -> nth_error (callObjs (dev w)) n = Some c -> c_callback c = true ->
  script w = Lines [lit "OK"] :: rest ->
  exists w' c', handleCallEnded_with hanging_once None (Some id) f w = Done (Err KeyError) w' /\ without id (activeCalls (dev w)) (activeCalls (dev w')) /\
    nth_error (callObjs (dev w')) n = Some c' /\ c_active c' = false /\ c_answered c' = false /\ asked (trace w') = asked (trace w) ++ [ATH_OK].
Proof.
  intros Sd N0 I Hc Cb Sc. destruct (ended_calls_back hanging_once id n c f w Sd N0 I Hc Cb) as (w1 & (calls & A & D & S1 & T1) & R).
  assert (Hc1 : nth_error (callObjs (dev w1)) n = Some (now_flagged false c)) by (rewrite D; apply A; auto).
  destruct (proj2 Sd _ _ I) as (c0 & Hc0 & Id & Ac). cbn in Hc0. rewrite Hc in Hc0. injection Hc0 as <-.
  pose proof (hangup_steps idle n (now_flagged false c) w1 Hc1 Ac Cb) as H. rewrite Sc in S1.
  rewrite (write_good _ (quiet_hush w1 n) [] (lit "OK") rest S1 ok_good) in H. destruct H as (w2 & c2 & O2 & Hc2 & An2 & S2 & T2 & E).
  assert (On : on_status hanging_once n w1 = hangup_with idle n w1) by (cbn [on_status hanging_once]; unfold mbind at 1, get at 1; rewrite (the_call_nth _ _ _ Hc1); auto).
  destruct (proj2 (proj2 O2) _ _ Hc1) as (c2' & Hc2' & _ & Id2 & _). rewrite Hc2 in Hc2'. injection Hc2' as <-.
  rewrite On, E in R. cbn [on_status idle] in R. unfold mbind at 1, ret at 1 in R. unfold mbind at 1, change_call, modify in R.
  set (w3 := mk_world (set_callObjs (update (callObjs (dev w2)) n (with_active false)) (dev w2)) (script w2) (trace w2)) in R.
  assert (Hc3 : nth_error (callObjs (dev w3)) n = Some (with_active false c2)) by (cbn; rewrite update_nth, Nat.eqb_refl, Hc2; auto).
  rewrite (freed_run n _ w3 Hc3) in R. assert (Ta : activeCalls (dev w2) = activeCalls (dev w)) by (destruct O2 as (O2 & _); rewrite O2, D; auto).
  inversion R as [k calls' table w0 I' A' W' D' S' T' E0|G E0]; clear R.
  - exfalso. cbn in I'. apply (without_in (c_id c2) (activeCalls (dev w2)) _ (zdel_without _ _)) in I' as [_ I']. cbn in I'. apply I'. rewrite Id2. cbn. auto.
  - eexists. exists (with_active false c2). split; [reflexivity|]. cbn. rewrite Ta, Id2. cbn. rewrite Id. split; [apply zdel_without|]. split; [exact Hc3|]. split; auto. split; auto.
    rewrite T2. cbn [trace]. rewrite !asked_app. cbn. rewrite T1, asked_app. cbn. rewrite asked_pause, !app_nil_r. auto.
Qed.

(** ** The table stays sound *)
Definition behaves {A} (c : M A) : Prop := forall w, sound_book (book_of (dev w)) -> sound_book (book_of (dev (last_of (c w)))) /\ same_ids (dev w) (dev (last_of (c w))).
Lemma ids_refl m : same_ids m m. Proof. intros n c H. eauto. Qed.
Lemma ids_trans m1 m2 m3 : same_ids m1 m2 -> same_ids m2 m3 -> same_ids m1 m3.
Proof. intros A B n c H. destruct (A _ _ H) as (c1 & H1 & E1). destruct (B _ _ H1) as (c2 & H2 & E2). exists c2. split; congruence. Qed.
Lemma behaves_bind {A B} (c : M A) (k : A -> M B) : behaves c -> (forall x, behaves (k x)) -> behaves (mbind c k).
Proof.
  intros H1 H2 w Sd. destruct (H1 w Sd) as [S1 I1]. unfold mbind. destruct (c w) as [[x|e] w1|w1]; cbn [last_of] in *; auto. destruct (H2 x w1 S1) as [S2 I2]. split; auto. eapply ids_trans; eauto.
Qed.
Lemma behaves_try {A} (c : M A) h : behaves c -> (forall e k, h e = Some k -> behaves k) -> behaves (try_except c h).
Proof.
  intros H1 H2 w Sd. destruct (H1 w Sd) as [S1 I1]. unfold try_except. destruct (c w) as [[x|e] w1|w1]; cbn [last_of] in *; auto. destruct (h e) eqn:E; cbn [last_of]; auto.
  destruct (H2 _ _ E w1 S1) as [S2 I2]. split; auto. eapply ids_trans; eauto.
Qed.
Lemma behaves_same {A} (c : M A) : leaves_calls c -> behaves c.
Proof. intros H w Sd. destruct (H w) as [E1 E2]. split; [eapply book_other; eauto|]. unfold same_ids. rewrite E1. eauto. Qed.
Lemma behaves_keeps {A} (c : M A) : keeps calls_of c -> behaves c.
Proof. intros K. apply behaves_same. intro w. specialize (K w). injection K as K1 K2. auto. Qed.
Lemma change_ids m o m' : change m o m' -> same_ids m m'.
Proof.
  intros [F E|c E A En _|n c Hc F W Or] k d H.
  - destruct (proj2 F _ _ H) as (d' & H' & X & _). eauto.
  - exists d. rewrite E, nth_error_app1; auto. apply nth_error_Some. congruence.
  - destruct (proj2 F _ _ H) as (d' & H' & X & _). eauto.
Qed.
Lemma behaves_change {A} (c : M A) o : (forall w, sound_book (book_of (dev w)) -> change (dev w) o (dev (last_of (c w)))) -> behaves c.
Proof. intros H w Sd. specialize (H w Sd). split; [eapply change_sound; eauto|eapply change_ids; eauto]. Qed.
Lemma behaves_flag n f : (forall c, same_call c (f c)) -> behaves (change_call n f).
Proof. intro H. apply (behaves_change _ (Answer 0)). intros w _. apply ch_flags; auto. apply flags_update. auto. Qed.
Lemma sound_without m id table : sound_book (book_of m) -> without id (activeCalls m) table -> sound_book (book_of (set_activeCalls table m)).
Proof.
  intros [Nd Sd] W. split; unfold ids in *; cbn in *; [eapply without_nodup; eauto|]. intros j n I. apply (without_in _ _ _ W) in I as [I _]. apply Sd. auto.
Qed.
Lemma sound_inactive m id n table : sound_book (book_of m) -> without id (activeCalls m) table -> (forall j, In (j, n) (activeCalls m) -> j = id) ->
  sound_book (book_of (set_activeCalls table (set_callObjs (update (callObjs m) n (with_active false)) m))).
Proof.
  intros [Nd Sd] W U. split; unfold ids in *; cbn in *; [eapply without_nodup; eauto|]. intros j k I. apply (without_in _ _ _ W) in I as [I N]. cbn in N. destruct (Sd _ _ I) as (c & Hc & X & Y).
  exists c. rewrite update_nth. destruct (Nat.eqb_spec n k) as [->|]; auto. destruct (N (U _ I)).
Qed.
Lemma ids_update m n f table : (forall c, c_id (f c) = c_id c) -> same_ids m (set_activeCalls table (set_callObjs (update (callObjs m) n f) m)).
Proof.
  intros H k c E. cbn. rewrite update_nth. destruct (Nat.eqb_spec n k) as [->|]; [rewrite E; cbn; eauto|eauto].
Qed.
Section Behaving.
Context (a : client) (Bs : forall s, behaves (on_sms a s)) (Br : forall s, behaves (on_report a s)) (Bg : forall n, behaves (on_ring a n)) (Bt : forall n, behaves (on_status a n)).
Lemma tell_behaves e : behaves (tell e). Proof. apply behaves_keeps, keeps_tell. Qed.
Lemma ret_behaves {A} (x : A) : behaves (ret x). Proof. apply behaves_keeps, keeps_ret. Qed.
Lemma raise_behaves {A} e : behaves (@raise A e). Proof. apply behaves_keeps, keeps_raise. Qed.
Lemma get_behaves : behaves get. Proof. apply behaves_keeps, keeps_get. Qed.
Lemma write_behaves data : behaves (write data). Proof. apply behaves_keeps, keeps_write. auto. Qed.
Lemma flag_behaves n b : behaves (set_answered_with a n b).
Proof.
  unfold set_answered_with. apply behaves_bind; [apply behaves_flag; split; auto|intros _]. apply behaves_bind; [apply get_behaves|intro m]. destruct (c_callback _); [|apply ret_behaves].
  apply behaves_bind; [apply tell_behaves|auto].
Qed.
Lemma freed_behaves n : behaves (freed n).
Proof.
  intros w Sd. unfold freed, mbind, get, modify, ret. destruct (zget (activeCalls (dev w)) (c_id (the_call (dev w) n))); cbn [last_of dev]; [|split; auto; apply ids_refl].
  split; [apply (sound_without _ (c_id (the_call (dev w) n))); auto; apply zdel_without|]. intros k c H. eauto.
Qed.
Lemma the_call_update m n f : nth_error (callObjs m) n <> None -> the_call (set_callObjs (update (callObjs m) n f) m) n = f (the_call m n).
Proof.
  intro H. destruct (nth_error (callObjs m) n) as [c|] eqn:E; [|congruence]. rewrite (the_call_nth m n c E). apply the_call_nth. cbn. rewrite update_nth, Nat.eqb_refl, E. auto.
Qed.
Lemma finished_behaves n : behaves (change_call n (with_active false) ;;; freed n).
Proof.
  intros w Sd. unfold mbind at 1 2, change_call, modify. set (w1 := mk_world _ _ _). destruct (nth_error (callObjs (dev w)) n) as [c|] eqn:Hc.
  - assert (Hc1 : nth_error (callObjs (dev w1)) n = Some (with_active false c)) by (cbn; rewrite update_nth, Nat.eqb_refl, Hc; auto). rewrite (freed_run _ _ _ Hc1). cbn [last_of dev]. split.
    + apply (sound_inactive (dev w) (c_id c) n); auto; [apply zdel_without|]. intros j I. destruct (proj2 Sd _ _ I) as (c' & Hc' & X & _). cbn in Hc'. congruence.
    + apply ids_update. auto.
  - assert (E : update (callObjs (dev w)) n (with_active false) = callObjs (dev w)).
    { apply nth_error_None in Hc. clear - Hc. revert n Hc. induction (callObjs (dev w)) as [|x l IH]; intros [|n] H; cbn in *; auto; [lia|]. f_equal. apply IH. lia. }
    assert (D : dev w1 = dev w) by (unfold w1; cbn [dev]; rewrite E; destruct (dev w); auto). destruct (freed_behaves n w1) as [S1 I1]; [rewrite D; auto|]. rewrite D in I1. auto.
Qed.
Lemma hangup_behaves n : behaves (hangup_with a n).
Proof.
  intros w Sd. destruct (nth_error (callObjs (dev w)) n) as [c|] eqn:Hc.
  - rewrite (hangup_eq _ _ _ _ Hc). assert (B0 : behaves (fun w => Done (Ok tt) (quiet_hush w n))).
    { apply (behaves_change _ (Answer 0)). intros w0 _. apply ch_flags; auto. apply flags_update. intro; split; auto. }
    destruct (B0 w Sd) as [S0 I0]. cbn [last_of] in *.
    assert (G : forall c : M unit, behaves c -> sound_book (book_of (dev (last_of (c (quiet_hush w n))))) /\ same_ids (dev w) (dev (last_of (c (quiet_hush w n))))).
    { intros k Bk. destruct (Bk _ S0) as [S1 I1]. split; auto. eapply ids_trans; eauto. }
    destruct (c_active c); apply G; [|apply freed_behaves]. apply behaves_bind; [apply write_behaves|intros _]. apply behaves_bind; [apply flag_behaves|intros _]. apply finished_behaves.
  - assert (B : behaves (hangup_with a n)); [|apply B; auto]. clear w Sd Hc. unfold hangup_with. apply behaves_bind; [apply get_behaves|intro m].
    apply behaves_bind; [destruct (c_incoming _); [apply behaves_flag; split; auto|apply ret_behaves]|intros _].
    fold (freed n). destruct (c_active (the_call m n)).
    + assert (E : forall w, mbind (write (lit "ATH") ;;; set_answered_with a n false ;;; change_call n (with_active false)) (fun _ => freed n) w = mbind (write (lit "ATH")) (fun _ => set_answered_with a n false ;;; change_call n (with_active false) ;;; freed n) w).
      { intro w. rewrite bind_assoc. apply bind_ext; auto. intros _ w1. rewrite bind_assoc. auto. }
      assert (B : behaves (mbind (write (lit "ATH")) (fun _ => set_answered_with a n false ;;; change_call n (with_active false) ;;; freed n))).
      { apply behaves_bind; [apply write_behaves|intros _]. apply behaves_bind; [apply flag_behaves|intros _]. apply finished_behaves. }
      intros w Sd. specialize (B w Sd). rewrite <- E in B. exact B.
    + apply behaves_bind; [apply ret_behaves|intros _]. apply freed_behaves.
Qed.
Lemma answer_behaves n : behaves (answer_with a n).
Proof.
  unfold answer_with. apply behaves_bind; [apply get_behaves|intro m]. destruct (c_ringing _); [|apply ret_behaves]. apply behaves_bind; [apply write_behaves|intros _].
  apply behaves_bind; [apply behaves_flag; split; auto|intros _]. apply flag_behaves.
Qed.
Lemma rest_behaves id : behaves (ended_rest id).
Proof.
  intros w Sd. unfold ended_rest, mbind, get. destruct (zget (activeCalls (dev w)) id) as [n|] eqn:G; cbn; [|split; auto; apply ids_refl]. split; [|apply ids_update; auto].
  apply (sound_inactive (dev w) id n); auto; [apply zdel_without|]. intros j I. apply zget_in in G. destruct (proj2 Sd _ _ I) as (c & Hc & X & _). destruct (proj2 Sd _ _ G) as (c' & Hc' & X' & _). congruence.
Qed.
Lemma ended_behaves g id f : behaves (handleCallEnded_with a g id f).
Proof.
  unfold handleCallEnded_with. apply behaves_bind.
  - apply behaves_keeps. unfold int_of. keeps_tac.
  - intros [i|]; [|apply ret_behaves]. destruct (i =? 0); [apply ret_behaves|]. apply behaves_bind; [apply get_behaves|intro m]. destruct (zget _ _); [|apply ret_behaves].
    apply behaves_bind; [apply flag_behaves|intros _]. apply (rest_behaves i).
Qed.
Lemma answered_behaves g id : behaves (handleCallAnswered_with a g id).
Proof.
  assert (B : forall i, behaves (answered_by_id_with a i)). { intro i. unfold answered_by_id_with. apply behaves_bind; [apply get_behaves|intro m]. destruct (zget _ _); [apply flag_behaves|apply raise_behaves]. }
  assert (F : behaves (do m <- get; match find_call m (fun c => negb (c_answered c) && negb (c_incoming c)) with Some n => set_answered_with a n true | None => ret tt end)).
  { apply behaves_bind; [apply get_behaves|intro m]. destruct (find_call _ _); [apply flag_behaves|apply ret_behaves]. }
  unfold handleCallAnswered_with. destruct g as [[|x [|y g]]|]; auto. apply behaves_bind; auto. apply behaves_keeps. unfold int_of. keeps_tac.
Qed.
Lemma received_behaves l : behaves (handleSmsReceived_with a l).
Proof.
  unfold handleSmsReceived_with. destruct (re_match CMTI_REGEX l); [|apply ret_behaves]. apply behaves_bind; [apply behaves_keeps, keeps_read|intro s]. apply behaves_bind; [apply behaves_keeps, keeps_delete|intros _].
  apply behaves_bind; [apply tell_behaves|auto].
Qed.
Lemma report_behaves l : behaves (handleSmsStatusReport_with a l).
Proof.
  unfold handleSmsStatusReport_with. destruct (re_match CDSI_REGEX l); [|apply ret_behaves]. apply behaves_bind; [apply behaves_keeps, keeps_read|intro s]. apply behaves_bind; [apply behaves_keeps, keeps_delete|intros _].
  destruct s; [apply raise_behaves|]. apply behaves_bind; [apply get_behaves|intro m]. apply behaves_bind; [destruct (zget _ _); [apply behaves_keeps, keeps_modify; auto|apply ret_behaves]|intros _].
  apply behaves_bind; [apply get_behaves|intro m']. destruct (reportEvent m'); [apply behaves_keeps, keeps_modify; auto|]. apply behaves_bind; [apply tell_behaves|auto].
Qed.
Lemma incoming_behaves l : behaves (handleIncomingCall_with a l).
Proof.
  intros w Sd. pose proof (ring_last a l w) as H. pose proof (change_incoming (Answer 0) l w) as C. destruct (handleIncomingCall l w) as [[[]|e] w1|w1]; cbn [last_of] in C.
  - destruct H as (pre & n & _ & ->). pose proof (change_sound _ _ _ Sd C) as S1. destruct (Bg n w1 S1) as [S2 I2]. split; auto. eapply ids_trans; [eapply change_ids; eauto|auto].
  - rewrite H. cbn. split; [eapply change_sound; eauto|eapply change_ids; eauto].
  - rewrite H. cbn. split; [eapply change_sound; eauto|eapply change_ids; eauto].
Qed.
Lemma updates_behave t line h : try_updates (call_updates_with a t) line = Some h -> behaves h.
Proof.
  intro H. assert (G : exists g, h = handleCallInitiated (Some g) 0 1 \/ h = handleCallAnswered_with a (Some g) 0 \/ h = handleCallEnded_with a (Some g) None false \/ h = handleCallRejected_with a (Some g) None).
  { destruct t; cbn [call_updates_with try_updates] in H; repeat match type of H with (match ?x with _ => _ end) = _ => destruct x end; try discriminate H; injection H as <-;
    eexists; first [left; reflexivity|right; left; reflexivity|right; right; left; reflexivity|right; right; right; reflexivity]. }
  destruct G as (g & [->|[->|[->| ->]]]); [apply behaves_keeps, keeps_initiated|apply answered_behaves|apply ended_behaves|apply ended_behaves].
Qed.
Lemma notify_behaves lines rest : behaves (notify_each_with a lines rest).
Proof.
  induction rest as [|line rest IH]; cbn [notify_each_with]; [apply ret_behaves|]. destruct (contains _ _); [apply incoming_behaves|]. destruct (startswith _ _); [apply received_behaves|].
  destruct (startswith _ _); [apply behaves_keeps, keeps_ussd|]. destruct (startswith _ _); [apply report_behaves|]. apply behaves_bind; [apply get_behaves|intro m].
  destruct (try_updates _ _) eqn:E; auto. eapply updates_behave; eauto.
Qed.
Lemma process_behaves b : behaves (processStoredSms_with a b).
Proof.
  unfold processStoredSms_with. generalize (if b then [0] else [1; 0]). intro sts. induction sts as [|st sts IH]; cbn [process_states_with]; [apply ret_behaves|]. apply behaves_bind.
  - apply behaves_keeps. assert (D : forall is, keeps calls_of (delete_each is)).
    { induction is as [|i is IHi]; cbn [delete_each]; [keeps_tac|]. apply keeps_bind; [apply keeps_delete|auto]. }
    unfold listStoredSms, deleteMultipleStoredSms, setSmsMemory. keeps_tac; auto.
  - intro l. apply behaves_bind; auto. clear IH. induction l as [|s l IH]; cbn [callback_each_with]; [apply ret_behaves|]. apply behaves_bind; [apply tell_behaves|intros _]. apply behaves_bind; auto.
Qed.
Lemma reports_behave r : behaves (handles_report_with a r).
Proof. destruct r; cbn [handles_report_with]; [apply behaves_keeps, keeps_initiated|apply answered_behaves|apply ended_behaves|apply ended_behaves]. Qed.
Lemma dial_start_behaves number cb : behaves (dial_start number cb).
Proof.
  apply (behaves_change _ (Dial number cb)). intros w _. pose proof (change_dial number cb w) as H. unfold ignoring, mbind in H. destruct (dial_start number cb w) as [[x|e] w1|w1]; exact H.
Qed.
Lemma dial_end_behaves number cb : behaves (dial_finish number cb).
Proof.
  apply (behaves_change _ (DialEnd number cb)). intros w _. pose proof (change_dial_end number cb w) as H. unfold ignoring, mbind in H. destruct (dial_finish number cb w) as [[x|e] w1|w1]; exact H.
Qed.
Lemma uses_behave A (c : M A) : uses a A c -> behaves c.
Proof.
  induction 1; [apply behaves_same; auto|apply behaves_bind; auto|apply behaves_try; eauto|apply dial_start_behaves|apply dial_end_behaves|apply answer_behaves|apply hangup_behaves|apply notify_behaves|apply reports_behave|apply process_behaves].
Qed.
End Behaving.
Lemma nested_behaves a : nested a -> (forall s, behaves (on_sms a s)) /\ (forall s, behaves (on_report a s)) /\ (forall n, behaves (on_ring a n)) /\ (forall n, behaves (on_status a n)).
Proof.
  induction 1 as [e|a a' H (I1 & I2 & I3 & I4) U1 U2 U3 U4]; [repeat split; intros; apply raise_behaves; auto|]. repeat split; intros; eapply (uses_behave a'); eauto.
Qed.
Theorem nested_sound a A (c : M A) w : nested a -> uses a A c -> sound_book (book_of (dev w)) -> sound_book (book_of (dev (last_of (c w)))) /\ same_ids (dev w) (dev (last_of (c w))).
Proof. intros N U Sd. destruct (nested_behaves a N) as (I1 & I2 & I3 & I4). apply (uses_behave a I1 I2 I3 I4 A c U w Sd). Qed.
