(** A thread on its own does what the methods do. *)
From Verif Require Import Base RegexModel UtilModel ModemCore ModemSpec WriteProofs MonadProofs SmsModel SendSpec SendProofs CallModel TrackSpec TrackProofs CoverageSpec BookSpec BookProofs DialSpec RingProofs RaceModel RaceSpec RaceProofs RaceInv.

Lemma solo_quiet i p t p1 t1 xs evs p2 t2 : go i p t = Some (p1, t1, LQuiet i) -> solo i p1 t1 xs evs p2 t2 -> solo i p t xs evs p2 t2.
Proof. intros G S. exact (so_go i p t p1 t1 (LQuiet i) xs evs p2 t2 G S). Qed.
Lemma solo_found i id n p t p1 t1 xs evs p2 t2 : go i p t = Some (p1, t1, LFound i id n) -> solo i p1 t1 xs evs p2 t2 -> solo i p t xs evs p2 t2.
Proof. intros G S. exact (so_go i p t p1 t1 (LFound i id n) xs evs p2 t2 G S). Qed.
Lemma solo_gone i id n p t p1 t1 xs evs p2 t2 : go i p t = Some (p1, t1, LGone i id n) -> solo i p1 t1 xs evs p2 t2 -> solo i p t xs evs p2 t2.
Proof. intros G S. exact (so_go i p t p1 t1 (LGone i id n) xs evs p2 t2 G S). Qed.
Lemma solo_entered i id n p t p1 t1 xs evs p2 t2 : go i p t = Some (p1, t1, LEntered i id n) -> solo i p1 t1 xs evs p2 t2 -> solo i p t xs evs p2 t2.
Proof. intros G S. exact (so_go i p t p1 t1 (LEntered i id n) xs evs p2 t2 G S). Qed.
(** the status callback *)
Definition told (b : bool) (n : nat) : list event := if b then [EStatus n] else [].
Lemma solo_mark i n b p t t1 xs evs p2 t2 : (let (p', e) := mark i n b p in go i p t = Some (p', t1, e)) ->
  solo i (alter n (with_answered b) p) t1 xs evs p2 t2 -> solo i p t xs (told (c_callback (call_at p n)) n ++ evs) p2 t2.
Proof. unfold mark, told. intros G S. pose proof (so_go i p t _ t1 _ xs evs p2 t2 G S) as X. destruct (c_callback (call_at p n)); exact X. Qed.
Lemma set_answered_is n b w : set_answered n b w =
  Done (Ok tt) (mk_world (set_callObjs (update (callObjs (dev w)) n (with_answered b)) (dev w)) (script w) (trace w ++ told (c_callback (the_call (dev w) n)) n)).
Proof.
  unfold set_answered, mbind, change_call, modify, get, tell, ret, told. cbn [dev trace script].
  assert (E : c_callback (the_call (set_callObjs (update (callObjs (dev w)) n (with_answered b)) (dev w)) n) = c_callback (the_call (dev w) n)).
  { unfold the_call. cbn [callObjs set_callObjs]. destruct (nth_error (callObjs (dev w)) n) as [c|] eqn:C.
    - rewrite (nth_error_nth _ _ _ C), (nth_error_nth (update _ _ _) n no_call (x := with_answered b c)); auto. rewrite update_nth, Nat.eqb_refl, C. auto.
    - rewrite !nth_overflow; auto; [apply nth_error_None; auto|]. rewrite update_length. apply nth_error_None. auto. }
  rewrite E. clear E. destruct (c_callback (the_call (dev w) n)); [reflexivity|]. rewrite app_nil_r. auto.
Qed.

(** ** The end of a call *)
Lemma ended_by_id id f m sc i x w : handleCallEnded None (Some id) f (start m sc) = Done x w ->
  solo i (phone_of m) (TEnd (ETest id)) [] (trace w) (phone_of (dev w)) (TEnd (EOver (outcome_of x))).
Proof.
  unfold handleCallEnded. unfold mbind at 1, ret at 1. destruct (id =? 0) eqn:Z0.
  - intro H. injection H as <- <-. eapply solo_quiet; [cbn; rewrite Z0; reflexivity|apply so_end].
  - unfold mbind at 1, get. cbn [dev start]. destruct (zget (activeCalls m) id) as [n|] eqn:E.
    + unfold mbind at 1. rewrite set_answered_is. unfold mbind, change_call, modify. cbn [dev trace script start]. intro H. injection H as <- <-. cbn [dev trace].
      eapply solo_found; [cbn; rewrite Z0, E; reflexivity|]. eapply solo_quiet; [cbn; rewrite E; reflexivity|]. cbn [app]. rewrite <- (app_nil_r (told _ _)). eapply solo_mark; [reflexivity|].
      eapply solo_quiet; [cbn; rewrite E; reflexivity|]. eapply solo_quiet; [reflexivity|]. eapply solo_gone; [cbn; unfold delete; cbn; rewrite E; reflexivity|]. apply so_end.
    + intro H. injection H as <- <-. eapply solo_quiet; [cbn; rewrite Z0, E; reflexivity|apply so_end].
Qed.

(** ** Loops *)
Lemma list_eqb_refl {A} (e : A -> A -> bool) : (forall x, e x x = true) -> forall a, list_eqb e a a = true.
Proof. intros H. induction a as [|x a IH]; cbn; auto. rewrite H, IH. auto. Qed.
Lemma still p k : next_turn p (mk_loop (p_table p) k) = match nth_error (p_table p) k with Some (_, n) => Yields n | None => Ends end.
Proof.
  unfold next_turn. cbn [seen pos]. rewrite Nat.eqb_refl, list_eqb_refl; auto. intros [j n]. unfold entry_eqb. cbn. rewrite Z.eqb_refl, Nat.eqb_refl. auto.
Qed.
Lemma still_at p tb k : p_table p = tb -> next_turn p (mk_loop tb k) = match nth_error tb k with Some (_, n) => Yields n | None => Ends end.
Proof. intros <-. apply still. Qed.
Lemma skipn_cons {A} (l : list A) k x r : skipn k l = x :: r -> nth_error l k = Some x /\ skipn (S k) l = r.
Proof. revert k. induction l as [|y l IH]; intros [|k] H; try discriminate. - injection H as -> ->. auto. - exact (IH k H). Qed.
Lemma skipn_end {A} (l : list A) k : skipn k l = [] -> nth_error l k = None.
Proof. intro H. apply nth_error_None. assert (E : length (skipn k l) = 0%nat) by (rewrite H; auto). rewrite skipn_length in E. lia. Qed.
Definition wanted (f : bool) (c : call) : bool := negb (c_incoming c) && (negb f || negb (c_answered c)).
Lemma end_loop i f p t : forall k, skipn k (p_table p) = t -> forall xs evs p2 t2,
  solo i p (match find (fun e => wanted f (call_at p (snd e))) t with Some e => TEnd (ETest (c_id (call_at p (snd e)))) | None => TEnd (EOver Fine) end) xs evs p2 t2 ->
  solo i p (TEnd (ELoop f (mk_loop (p_table p) k))) xs evs p2 t2.
Proof.
  induction t as [|[id n] t IH]; intros k Sk xs evs p2 t2 H; cbn [find snd] in H.
  - eapply solo_quiet; [cbn; rewrite still, (skipn_end _ _ Sk); reflexivity|exact H].
  - apply skipn_cons in Sk as [N Sk]. eapply solo_quiet; [cbn; rewrite still, N; reflexivity|]. destruct (wanted f (call_at p n)) eqn:W.
    + eapply solo_quiet; [|exact H]. unfold wanted in W. cbn. rewrite W. reflexivity.
    + eapply solo_quiet; [unfold wanted in W; cbn; rewrite W; reflexivity|]. apply (IH (S k) Sk). exact H.
Qed.
Lemma ended_somewhere f m sc i x w : handleCallEnded (Some []) None f (start m sc) = Done x w ->
  solo i (phone_of m) (TEnd (ESearch f)) [] (trace w) (phone_of (dev w)) (TEnd (EOver (outcome_of x))).
Proof.
  intro H. assert (X : solo i (phone_of m) (match find (fun e => wanted f (call_at (phone_of m) (snd e))) (activeCalls m) with Some e => TEnd (ETest (c_id (call_at (phone_of m) (snd e)))) | None => TEnd (EOver Fine) end) [] (trace w) (phone_of (dev w)) (TEnd (EOver (outcome_of x)))).
  { unfold handleCallEnded in H. unfold mbind at 1 2, get at 1 in H. cbn [dev start] in H. unfold find_call in H. change (the_call m) with (call_at (phone_of m)) in H.
    change (fun e : Z * nat => negb (c_incoming (call_at (phone_of m) (snd e))) && (negb f || negb (c_answered (call_at (phone_of m) (snd e))))) with (fun e : Z * nat => wanted f (call_at (phone_of m) (snd e))) in H.
    destruct (find _ (activeCalls m)) as [[j n]|]; cbn [option_map snd] in H |- *.
    - change (call_at (phone_of m) n) with (the_call m n). apply (ended_by_id _ f m sc). exact H.
    - unfold ret in H. injection H as <- <-. apply so_end. }
  eapply solo_quiet; [reflexivity|]. apply (end_loop i f (phone_of m) (activeCalls m) 0 eq_refl). exact X.
Qed.
Lemma ended_numbered g gs id f m sc i x w : py_int 10 g = Ok id -> handleCallEnded (Some (g :: gs)) None f (start m sc) = Done x w ->
  solo i (phone_of m) (TEnd (ETest id)) [] (trace w) (phone_of (dev w)) (TEnd (EOver (outcome_of x))).
Proof. intros P H. apply (ended_by_id id f m sc). unfold handleCallEnded in H |- *. unfold mbind at 1 2, int_of, lift in H. cbn [nth_error] in H. rewrite P in H. exact H. Qed.

(** ** The answer of a call *)
Lemma answered_by id m sc i x w : answered_by_id id (start m sc) = Done x w ->
  solo i (phone_of m) (TAnswered (AGet id)) [] (trace w) (phone_of (dev w)) (TAnswered (AOver (outcome_of x))).
Proof.
  unfold answered_by_id, mbind at 1, get. cbn [dev start]. destruct (zget (activeCalls m) id) as [n|] eqn:E.
  - rewrite set_answered_is. intro H. injection H as <- <-. eapply solo_quiet; [cbn; rewrite E; reflexivity|]. cbn [trace start app]. rewrite <- (app_nil_r (told _ _)). eapply solo_mark; [reflexivity|]. apply so_end.
  - intro H. injection H as <- <-. eapply solo_quiet; [cbn; rewrite E; reflexivity|apply so_end].
Qed.
Lemma answered_loop i p t : forall k, skipn k (p_table p) = t -> forall xs evs p2 t2,
  solo i p (match find (fun e => negb (c_answered (call_at p (snd e))) && negb (c_incoming (call_at p (snd e)))) t with Some e => TAnswered (AAnswer (snd e)) | None => TAnswered (AOver Fine) end) xs evs p2 t2 ->
  solo i p (TAnswered (ALoop (mk_loop (p_table p) k))) xs evs p2 t2.
Proof.
  induction t as [|[id n] t IH]; intros k Sk xs evs p2 t2 H; cbn [find snd] in H.
  - eapply solo_quiet; [cbn; rewrite still, (skipn_end _ _ Sk); reflexivity|exact H].
  - apply skipn_cons in Sk as [N Sk]. eapply solo_quiet; [cbn; rewrite still, N; reflexivity|]. destruct (negb (c_answered (call_at p n)) && negb (c_incoming (call_at p n))) eqn:W.
    + eapply solo_quiet; [|exact H]. cbn. rewrite W. reflexivity.
    + eapply solo_quiet; [cbn; rewrite W; reflexivity|]. apply (IH (S k) Sk). exact H.
Qed.
Lemma answered_is groups callId m sc i x w : handleCallAnswered groups callId (start m sc) = Done x w ->
  match groups with
  | None => solo i (phone_of m) (TAnswered (AGet callId)) [] (trace w) (phone_of (dev w)) (TAnswered (AOver (outcome_of x)))
  | Some (g :: _ :: _) => forall id, py_int 10 g = Ok id -> solo i (phone_of m) (TAnswered (AGet id)) [] (trace w) (phone_of (dev w)) (TAnswered (AOver (outcome_of x)))
  | Some _ => solo i (phone_of m) (TAnswered ASearch) [] (trace w) (phone_of (dev w)) (TAnswered (AOver (outcome_of x)))
  end.
Proof.
  assert (F : forall x w, (do m <- get; match find_call m (fun c => negb (c_answered c) && negb (c_incoming c)) with Some n => set_answered n true | None => ret tt end) (start m sc) = Done x w ->
    solo i (phone_of m) (TAnswered ASearch) [] (trace w) (phone_of (dev w)) (TAnswered (AOver (outcome_of x)))).
  { clear. intros x w H. unfold mbind at 1, get in H. cbn [dev start] in H. unfold find_call in H. change (the_call m) with (call_at (phone_of m)) in H.
    eapply solo_quiet; [reflexivity|]. apply (answered_loop i (phone_of m) (activeCalls m) 0 eq_refl). destruct (find _ (activeCalls m)) as [[j n]|]; cbn [option_map snd] in H |- *.
    - rewrite set_answered_is in H. injection H as <- <-. cbn [trace start app]. rewrite <- (app_nil_r (told _ _)). eapply solo_mark; [reflexivity|]. apply so_end.
    - injection H as <- <-. apply so_end. }
  unfold handleCallAnswered. destruct groups as [[|g [|g2 gs]]|]; [apply F..| |apply answered_by].
  intros H id P. unfold mbind at 1, int_of, lift in H. cbn [nth_error] in H. rewrite P in H. eapply answered_by; eauto.
Qed.

(** ** hangup and answer *)
Lemma call_at_changed m n f k : call_at (phone_of (set_callObjs (update (callObjs m) n f) m)) k = call_at (alter n f (phone_of m)) k.
Proof. auto. Qed.
Lemma hung_up n m sc i x w : (n < length (callObjs m))%nat -> hangup n (start m sc) = Done x w ->
  exists xs evs told, trace w = evs ++ told /\ solo i (phone_of m) (THang n HHush) xs told (phone_of (dev w)) (THang n (HOver (outcome_of x))) /\
    if c_active (the_call m n) then exists r, xs = [unit_res r] /\ exchange (lit "ATH") [13] evs r else xs = [] /\ evs = [].
Proof.
  intros Ln H. unfold hangup in H. unfold mbind at 1, get at 1 in H. cbn [dev start] in H. set (p1 := if c_incoming (the_call m n) then alter n (with_ringing false) (phone_of m) else phone_of m).
  unfold mbind at 1 in H. set (w1 := mk_world (if c_incoming (the_call m n) then set_callObjs (update (callObjs m) n (with_ringing false)) m else m) sc []).
  assert (E1 : (if c_incoming (the_call m n) then change_call n (with_ringing false) else ret tt) (start m sc) = Done (Ok tt) w1). { unfold w1. destruct (c_incoming _); reflexivity. }
  rewrite E1 in H. assert (P1 : phone_of (dev w1) = p1). { unfold w1, p1. destruct (c_incoming _); reflexivity. }
  assert (Cl : c_id (call_at p1 n) = c_id (the_call m n) /\ c_active (call_at p1 n) = c_active (the_call m n) /\ c_callback (call_at p1 n) = c_callback (the_call m n)).
  { unfold p1. destruct (c_incoming _); [|auto]. rewrite call_at_alter, Nat.eqb_refl by auto. auto. }
  assert (T1 : p_table p1 = activeCalls m). { unfold p1. destruct (c_incoming _); auto. }
  assert (L1 : length (p_calls p1) = length (callObjs m)). { unfold p1. destruct (c_incoming _); auto. cbn. apply update_length. }
  assert (End : forall p w2, phone_of (dev w2) = p -> c_id (call_at p n) = c_id (the_call m n) ->
     (do m0 <- get; match zget (activeCalls m0) (c_id (the_call m0 n)) with Some _ => modify (fun m1 => set_activeCalls (zdel (activeCalls m1) (c_id (the_call m1 n))) m1) | None => ret tt end) w2 = Done x w ->
     trace w = trace w2 /\ solo i p (THang n HIn) [] [] (phone_of (dev w)) (THang n (HOver (outcome_of x)))).
  { clear. intros p w2 P E H. unfold mbind, get in H. change (the_call (dev w2) n) with (call_at (phone_of (dev w2)) n) in H. change (activeCalls (dev w2)) with (p_table (phone_of (dev w2))) in H. rewrite P in H.
    destruct (zget (p_table p) (c_id (call_at p n))) as [k|] eqn:Z0.
    - unfold modify in H. injection H as <- <-. split; auto. eapply solo_found; [cbn [go hang_go]; rewrite Z0; reflexivity|]. eapply solo_gone; [cbn [go hang_go]; unfold delete; rewrite Z0; reflexivity|].
      match goal with |- solo _ _ _ _ _ ?q _ => replace q with (remove (c_id (call_at p n)) p) by (rewrite <- P; reflexivity) end. apply so_end.
    - unfold ret in H. injection H as <- <-. split; auto. eapply solo_quiet; [cbn [go hang_go]; rewrite Z0; reflexivity|]. rewrite P. apply so_end. }
  destruct Cl as (Ci & Ca & Cb). assert (Q0 : go i (phone_of m) (THang n HHush) = Some (p1, THang n HActive, LQuiet i)) by reflexivity.
  unfold mbind at 1 in H. destruct (c_active (the_call m n)) eqn:A.
  - unfold mbind at 1, write in H. pose proof (keeps_write calls_of (lit "ATH") CR true ltac:(reflexivity) w1) as K.
    destruct (write_with (lit "ATH") CR true w1) as [[ls|e] w2|w2] eqn:W; [| |discriminate]; apply exchange_of in W as (evs & T & X); cbn [trace w1 app] in T; cbn [last_of] in K; unfold calls_of in K; injection K as K1 K2.
    + assert (P2 : phone_of (dev w2) = p1). { rewrite <- P1. unfold phone_of. rewrite K1, K2. auto. }
      unfold mbind at 1 in H. rewrite set_answered_is in H. unfold change_call, modify in H. cbn [dev trace script] in H.
      set (p3 := alter n (with_active false) (alter n (with_answered false) p1)).
      match type of H with _ ?w3 = _ => destruct (End p3 w3) as [T3 S3]; [| |exact H|] end.
      { unfold phone_of. cbn [dev callObjs activeCalls set_callObjs]. unfold p3. rewrite <- P2. reflexivity. }
      { unfold p3. rewrite !call_at_alter, Nat.eqb_refl by (cbn; rewrite ?update_length, L1; auto). cbn. auto. }
      cbn [trace] in T3. exists [Ok tt], evs, (told (c_callback (the_call m n)) n). split.
      { rewrite T3, T. f_equal. f_equal. rewrite <- Cb, <- P2. reflexivity. }
      split; [|exists (Ok ls); auto].
      eapply solo_quiet; [exact Q0|]. eapply solo_quiet; [cbn; rewrite Ca; reflexivity|]. eapply so_write; [reflexivity|]. rewrite <- (app_nil_r (told _ _)), <- Cb. eapply solo_mark; [reflexivity|].
      eapply solo_quiet; [reflexivity|]. exact S3.
    + injection H as <- <-. exists [Err e], evs, []. rewrite app_nil_r. split; auto. split; [|exists (Err e); auto].
      assert (P2 : phone_of (dev w2) = p1). { rewrite <- P1. unfold phone_of. rewrite K1, K2. auto. }
      eapply solo_quiet; [exact Q0|]. eapply solo_quiet; [cbn; rewrite Ca; reflexivity|]. eapply so_write; [reflexivity|]. rewrite P2. apply so_end.
  - unfold ret in H. destruct (End p1 w1 P1 Ci H) as [T S]. exists [], [], []. split; auto. split; auto. eapply solo_quiet; [exact Q0|]. eapply solo_quiet; [cbn; rewrite Ca; reflexivity|]. exact S.
Qed.
Lemma picked n m sc i x w : (n < length (callObjs m))%nat -> answer n (start m sc) = Done x w ->
  exists xs evs told, trace w = evs ++ told /\ solo i (phone_of m) (TPick n PRinging) xs told (phone_of (dev w)) (TPick n (POver (outcome_of x))) /\
    if c_ringing (the_call m n) then exists r, xs = [unit_res r] /\ exchange (lit "ATA") [13] evs r else xs = [] /\ evs = [].
Proof.
  intros Ln H. unfold answer in H. unfold mbind at 1, get at 1 in H. cbn [dev start] in H. destruct (c_ringing (the_call m n)) eqn:A.
  - unfold mbind at 1, write in H. pose proof (keeps_write calls_of (lit "ATA") CR true ltac:(reflexivity) (start m sc)) as K.
    destruct (write_with (lit "ATA") CR true (start m sc)) as [[ls|e] w2|w2] eqn:W; [| |discriminate]; apply exchange_of in W as (evs & T & X); cbn [trace start app] in T; cbn [last_of] in K; unfold calls_of in K; injection K as K1 K2;
      (assert (P2 : phone_of (dev w2) = phone_of m) by (unfold phone_of; rewrite K1, K2; auto)).
    + unfold mbind at 1, change_call, modify in H. rewrite set_answered_is in H. cbn [dev trace script] in H. injection H as <- <-. cbn [dev trace].
      exists [Ok tt], evs, (told (c_callback (the_call m n)) n). split.
      { rewrite T. f_equal. f_equal. change (the_call (set_callObjs (update (callObjs (dev w2)) n (with_ringing false)) (dev w2)) n) with (call_at (alter n (with_ringing false) (phone_of (dev w2))) n). rewrite P2, call_at_alter, Nat.eqb_refl by auto. auto. }
      split; [|exists (Ok ls); auto]. eapply solo_quiet; [cbn [go pick_go]; change (call_at (phone_of m) n) with (the_call m n); rewrite A; reflexivity|]. eapply so_write; [reflexivity|].
      eapply solo_quiet; [reflexivity|]. rewrite <- (app_nil_r (told _ _)).
      replace (c_callback (the_call m n)) with (c_callback (call_at (alter n (with_ringing false) (phone_of m)) n)) by (rewrite call_at_alter, Nat.eqb_refl by auto; auto).
      eapply solo_mark; [reflexivity|]. rewrite <- P2. apply so_end.
    + injection H as <- <-. exists [Err e], evs, []. rewrite app_nil_r. split; auto. split; [|exists (Err e); auto].
      eapply solo_quiet; [cbn [go pick_go]; change (call_at (phone_of m) n) with (the_call m n); rewrite A; reflexivity|]. eapply so_write; [reflexivity|]. rewrite P2. apply so_end.
  - unfold ret in H. injection H as <- <-. exists [], [], []. split; auto. split; auto. eapply solo_quiet; [cbn [go pick_go]; change (call_at (phone_of m) n) with (the_call m n); rewrite A; reflexivity|]. apply so_end.
Qed.

(** ** Incoming calls *)
Lemma same_number i nb ty p l f n : go i p (TRing nb ty (RLook l f n)) = Some (p, TRing nb ty (if opt_str_eqb (c_number (call_at p n)) nb then
                 if c_incoming (call_at p n) then RCount l n (c_ringCount (call_at p n) + 1) else ROver (Raised AttributeError) else RLoop (further l) f), LQuiet i).
Proof. reflexivity. Qed.
Lemma ring_loop i nb ty tb : forall t k, skipn k tb = t -> forall f w x w', activeCalls (dev w) = tb -> ring_each t nb f w = Done x w' ->
  trace w' = trace w /\ script w' = script w /\ activeCalls (dev w') = tb /\
  forall xs evs p2 t2, solo i (phone_of (dev w')) (TRing nb ty (match x with Ok (Some n) => RTell n | Ok None => RLen | Err e => ROver (Raised e) end)) xs evs p2 t2 ->
    solo i (phone_of (dev w)) (TRing nb ty (RLoop (mk_loop tb k) f)) xs evs p2 t2.
Proof.
  induction t as [|[id n] t IH]; intros k Sk f w x w' At H.
  - injection H as <- <-. split; auto. split; auto. split; auto. intros xs evs p2 t2 S. eapply solo_quiet; [cbn [go ring_go]; rewrite (still_at (phone_of (dev w)) tb k At), (skipn_end _ _ Sk); reflexivity|].
    destruct f; exact S.
  - apply skipn_cons in Sk as [N Sk]. rewrite ring_step in H. change (the_call (dev w) n) with (call_at (phone_of (dev w)) n) in H.
    assert (Y : forall xs evs p2 t2, solo i (phone_of (dev w)) (TRing nb ty (RLook (mk_loop tb k) f n)) xs evs p2 t2 -> solo i (phone_of (dev w)) (TRing nb ty (RLoop (mk_loop tb k) f)) xs evs p2 t2).
    { intros xs evs p2 t2 S. eapply solo_quiet; [|exact S]. cbn [go ring_go]. rewrite (still_at (phone_of (dev w)) tb k At), N. reflexivity. }
    destruct (opt_str_eqb (c_number (call_at (phone_of (dev w)) n)) nb) eqn:O.
    + destruct (c_incoming (call_at (phone_of (dev w)) n)) eqn:I.
      * destruct (IH (S k) Sk (Some n) (ring_again n w) x w' At H) as (T1 & T2 & T3 & F). split; auto. split; auto. split; auto. intros xs evs p2 t2 S. apply Y. eapply solo_quiet; [rewrite same_number, O, I; reflexivity|].
        eapply solo_quiet; [reflexivity|]. apply F. exact S.
      * injection H as <- <-. split; auto. split; auto. split; auto. intros xs evs p2 t2 S. apply Y. eapply solo_quiet; [rewrite same_number, O, I; reflexivity|]. exact S.
    + destruct (IH (S k) Sk f w x w' At H) as (T1 & T2 & T3 & F). split; auto. split; auto. split; auto. intros xs evs p2 t2 S. apply Y. eapply solo_quiet; [rewrite same_number, O; reflexivity|]. apply F. exact S.
Qed.
Lemma rung_is ring rest m sc i x w : handleIncomingCall (ring :: rest) (start m sc) = Done x w ->
  (exists e crc', x = Err e /\ DialSpec.ring_kind (crc m) ring (trace w) (Err e) crc' /\ phone_of (dev w) = phone_of m) \/
  exists evs kind crc' number tr, trace w = evs ++ tr /\ DialSpec.ring_kind (crc m) ring evs (Ok kind) crc' /\ caller (clip m) (ring :: rest) number /\
    solo i (phone_of m) (TRing number kind RSearch) [] tr (phone_of (dev w)) (TRing number kind (ROver (outcome_of x))).
Proof.
  cbn [handleIncomingCall]. unfold mbind at 1, get at 1. cbn [dev start]. fold (kind_asked m ring). unfold mbind at 1.
  pose proof (kind_run ring (start m sc)) as K. cbn [dev start] in K. destruct (kind_asked m ring (start m sc)) as [[kind|e] w1|w1]; [| |discriminate].
  - destruct K as (evs & K & T & B & C). cbn [trace start app] in T. assert (P1 : phone_of (dev w1) = phone_of m). { injection B as B1 B2 _ _. unfold phone_of. rewrite B1, B2. auto. }
    unfold mbind at 1, get at 1. cbn beta iota. set (number := match rest with [] => None | _ => _ end).
    assert (Ca : caller (clip m) (ring :: rest) number). { unfold number. rewrite C. apply caller_spec. } clearbody number.
    intro H. right. exists evs, kind, (crc (dev w1)), number. unfold mbind at 1 in H. destruct (ring_each (activeCalls (dev w1)) number None w1) as [f w2|w2] eqn:Rg; [|discriminate].
    destruct (ring_loop i number kind (activeCalls (dev w1)) (activeCalls (dev w1)) 0 eq_refl None w1 f w2 eq_refl Rg) as (T2 & S2 & A2 & F).
    assert (G : forall tr p2 t2, solo i (phone_of (dev w2)) (TRing number kind (match f with Ok (Some n) => RTell n | Ok None => RLen | Err e => ROver (Raised e) end)) [] tr p2 t2 ->
      solo i (phone_of m) (TRing number kind RSearch) [] tr p2 t2).
    { intros tr p2 t2 S. eapply solo_quiet; [reflexivity|]. rewrite <- P1. apply F. exact S. }
    destruct f as [[n|]|e].
    + unfold mbind at 1, ret, tell in H. injection H as <- <-. exists [ERing n]. cbn [trace dev]. rewrite T2, T. split; auto. split; auto. split; auto. apply G. apply (so_go i _ _ (phone_of (dev w2)) (TRing number kind (ROver Fine)) (LRing i n) [] [] _ _); [reflexivity|apply so_end].
    + unfold mbind at 1, mbind at 1, get in H. cbn beta iota in H. unfold mbind at 1, lift in H. destruct (new_incoming number (Z.of_nat (length (activeCalls (dev w2))) + 1) kind) as [c|e] eqn:N.
      * destruct (new_incoming_ok _ _ _ _ N) as [Ei _]. unfold add_call, mbind, get, modify, ret, tell in H. cbn [dev trace script] in H. injection H as <- <-. exists [ERing (length (callObjs (dev w2)))]. cbn [trace dev]. rewrite T2, T. split; auto. split; auto. split; auto. apply G.
        eapply solo_quiet; [reflexivity|]. eapply solo_entered; [cbn [go ring_go]; change (p_table (phone_of (dev w2))) with (activeCalls (dev w2)); rewrite N; reflexivity|].
        eapply (so_go i _ _ _ (TRing number kind (ROver Fine)) (LRing i (length (callObjs (dev w2)))) [] [] _ _); [reflexivity|apply so_end].
      * injection H as <- <-. exists []. rewrite T2, T, app_nil_r. split; auto. split; auto. split; auto. apply G. eapply solo_quiet; [reflexivity|]. eapply solo_quiet; [cbn [go ring_go]; change (p_table (phone_of (dev w2))) with (activeCalls (dev w2)); rewrite N; reflexivity|]. apply so_end.
    + injection H as <- <-. exists []. rewrite T2, T, app_nil_r. split; auto. split; auto. split; auto. apply G. apply so_end.
  - intro H. injection H as <- <-. left. destruct K as (evs & K & T & B & C). cbn [trace start app] in T. exists e, (crc (dev w1)). rewrite T. split; auto. split; auto. injection B as B1 B2 _ _. unfold phone_of. rewrite B1, B2. auto.
Qed.

(** ** dial *)
Lemma dialled_at_once number cb m sc i r w : waitInit m = false -> dial_start number cb (start m sc) = Done r w ->
  match r with
  | Ok (Some n) => solo i (phone_of m) (TDial number cb DLen) [] [] (phone_of (dev w)) (TDial number cb (DOver n))
  | Ok None => False
  | Err _ => phone_of (dev w) = phone_of m
  end.
Proof.
  intros WI H. unfold dial_start in H. unfold mbind at 1, get at 1 in H. cbn [dev start] in H. rewrite WI in H. unfold mbind at 1 in H. pose proof (keeps_atd number (start m sc)) as K.
  destruct (atd number (start m sc)) as [[u|e] w1|w1]; [| |discriminate]; cbn [last_of] in K; unfold calls_of in K; injection K as K1 K2; (assert (P1 : phone_of (dev w1) = phone_of m) by (unfold phone_of; rewrite K1, K2; auto)).
  - unfold mbind, get, add_call, modify, ret in H. cbn [dev trace script] in H. injection H as <- <-. cbn [dev]. rewrite <- P1. eapply solo_quiet; [reflexivity|]. eapply solo_entered; [reflexivity|]. apply so_end.
  - injection H as <- <-. exact P1.
Qed.
Lemma dialled_later number cb m sc i r w : dial_finish number cb (start m sc) = Done r w ->
  match r with
  | Ok n => exists id ty, dialResponse m = Some (id, ty) /\ solo i (phone_of m) (TDial number cb (DEnter id ty)) [] [] (phone_of (dev w)) (TDial number cb (DOver n))
  | Err _ => phone_of (dev w) = phone_of m
  end.
Proof.
  intro H. unfold dial_finish in H. unfold mbind at 1, get at 1 in H. cbn [dev start] in H. destruct (dialEvent m) as [[]|].
  - destruct (dialResponse m) as [[id ty]|] eqn:E.
    + unfold mbind, modify, add_call, get, ret in H. cbn [dev start script trace] in H. injection H as <- <-. exists id, ty. split; auto. eapply solo_entered; [reflexivity|]. apply so_end.
    + unfold mbind, modify, raise in H. injection H as <- <-. reflexivity.
  - unfold mbind, modify, raise in H. injection H as <- <-. reflexivity.
  - unfold raise in H. injection H as <- <-. reflexivity.
Qed.
(** a thread on its own is an execution *)
Lemma solo_run i p t xs evs p' t' : solo i p t xs evs p' t' -> forall ts, nth_error ts i = Some t -> exists ls, run (mk_system p ts) ls (mk_system p' (update ts i (fun _ => t'))).
Proof.
  assert (Cat : forall s l1 s1, run s l1 s1 -> forall l2 s2, run s1 l2 s2 -> run s (l1 ++ l2) s2).
  { intros s l1 s1 R1 l2 s2 R2. induction R2 as [|ls sa a sb l R IH A]; [rewrite app_nil_r; auto|]. rewrite app_assoc. eapply run_snoc; eauto. }
  assert (Up : forall {A} (l : list A) n f g, update (update l n f) n g = update l n (fun x => g (f x))). { intros. apply update_update. }
  assert (Id : forall {A} (l : list A) n x, nth_error l n = Some x -> update l n (fun _ => x) = l). { intros A l. induction l as [|y l IH]; intros [|n] x H; cbn in *; try discriminate; [congruence|]. f_equal. auto. }
  induction 1 as [p t|p t p1 t1 l xs evs p2 t2 G S IH|p t x t1 l xs evs p2 t2 G S IH]; intros ts N.
  - rewrite (Id _ _ _ _ N). exists []. constructor.
  - destruct (IH (update ts i (fun _ => t1))) as (ls & R); [rewrite update_nth, Nat.eqb_refl, N; auto|]. rewrite Up in R. exists ([l] ++ ls). eapply Cat; [|exact R]. apply (run_snoc (mk_system p ts) [] (mk_system p ts) (AGo i)); [constructor|]. cbn. rewrite N, G. auto.
  - destruct (IH (update ts i (fun _ => t1))) as (ls & R); [rewrite update_nth, Nat.eqb_refl, N; auto|]. rewrite Up in R. exists ([l] ++ ls). eapply Cat; [|exact R]. apply (run_snoc (mk_system p ts) [] (mk_system p ts) (AWritten i x)); [constructor|]. cbn. rewrite N, G. auto.
Qed.
