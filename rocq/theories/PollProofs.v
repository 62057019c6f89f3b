(** Proofs about polling the status of calls. *)
From Verif Require Import Base RegexModel RegexProofs UtilModel UtilSpec UtilProofs ModemCore ModemSpec WriteProofs MonadProofs SmsModel SendSpec SendProofs LangProofs CoverageSpec CoverageProofs ReadProofs QueryProofs
  ModemFinal TrackSpec PollModel PollSpec.

Lemma clcc_fun line i d s t i' d' s' t' : clcc_line line i d s t -> clcc_line line i' d' s' t' -> (i, d, s, t) = (i', d', s', t').
Proof.
  intros (sp & ds & dc & sc & tc & x & nu & ds2 & nl & -> & N1 & B1 & D1 & _ & _ & _ & _ & _ & _ & _ & -> & -> & -> & ->)
    (sp' & ds' & dc' & sc' & tc' & x' & nu' & ds2' & nl' & E & N1' & B1' & D1' & _ & _ & _ & _ & _ & _ & _ & -> & -> & -> & ->).
  apply app_inv_head in E.
  assert (SD : forall ds r, digits ds -> starts_outside is_space (ds ++ r)).
  { intros [|c l] r [N F]; [congruence|]. inversion F; subst. cbn. apply digit_not_space. auto. }
  apply (span_unique is_space) in E as [-> E]; auto. cbn in E.
  apply (nodigit 44) in E as [-> E]; [|apply D1|reflexivity|apply D1']. injection E as -> -> -> _. reflexivity.
Qed.
Lemma clcc_match_inv line w : re_match CLCC_REGEX line = Some w -> exists ds d s t, group 1 w = ds /\ group 2 w = [d] /\ group 3 w = [s] /\ group 4 w = [t] /\
  digits ds /\ is_digit d = true /\ is_digit s = true /\ is_digit t = true /\ clcc_line line (dec_value ds) (d - 48) (s - 48) (t - 48).
Proof.
  destruct w as [[t g] rest]. intro H. apply re_match_some in H as [-> L]. unfold CLCC_REGEX in L. lang_inv L. unfold group. cbn [groups fst snd nth Nat.sub].
  exists a0, c, c0, c1. repeat split; auto. exists a, a0, c, c0, c1, c2, a1, a2, rest. apply (c_not_not_in 44) in F5.
  split; [appn; rewrite ?app_nil_r; auto|]. repeat split; auto. unfold c_not in F4. intros ->. discriminate F4.
Qed.
Lemma clcc_match line i d s t : clcc_line line i d s t -> exists w, re_match CLCC_REGEX line = Some w.
Proof.
  intros (sp & ds & dc & sc & tc & x & nu & ds2 & nl & -> & N1 & B1 & [N2 D1] & D2 & D3 & D4 & NX & NN & [N3 D5] & E & _).
  destruct (re_match CLCC_REGEX _) as [w|] eqn:R; [eauto|]. exfalso. eapply (proj1 (re_match_none _ _) R) with
    (t := lit "+CLCC:" ++ sp ++ ds ++ [44; dc; 44; sc; 44; tc; 44; x; 44; 34] ++ nu ++ [34; 44] ++ ds2) (g := [ds; [dc]; [sc]; [tc]; [x]; nu; ds2]) (rest := nl).
  - appn. auto.
  - unfold CLCC_REGEX. apply seq_lit. eexists. split; [reflexivity|]. apply seq_plus. do 2 eexists. split; [reflexivity|]. split; auto. split; auto.
    apply seq_gplus. do 3 eexists. split; [reflexivity|]. split; [reflexivity|]. split; auto. split; auto.
    apply seq_lit. eexists. split; [reflexivity|]. apply seq_gcls. do 3 eexists. split; [reflexivity|]. split; [reflexivity|]. split; auto.
    apply seq_lit. eexists. split; [reflexivity|]. apply seq_gcls. do 3 eexists. split; [reflexivity|]. split; [reflexivity|]. split; auto.
    apply seq_lit. eexists. split; [reflexivity|]. apply seq_gcls. do 3 eexists. split; [reflexivity|]. split; [reflexivity|]. split; auto.
    apply seq_lit. eexists. split; [reflexivity|]. apply seq_gcls. do 3 eexists. split; [reflexivity|]. split; [reflexivity|]. split; [unfold c_not; destruct (Z.eqb_spec x 44); auto|].
    apply seq_lit. eexists. split; [reflexivity|]. apply seq_gstar. do 3 eexists. split; [reflexivity|]. split; [reflexivity|]. split; [apply c_not_not_in; auto|].
    apply seq_lit. eexists. split; [reflexivity|]. apply seq_gplus. exists ds2, [], []. rewrite app_nil_r. split; [reflexivity|]. split; [reflexivity|]. split; auto. split; auto.
    apply end_eol. auto.
Qed.

(** ** One round *)
Definition poll_query : M (option way) :=
  try_except (do ls <- write (lit "AT+CLCC"); do l <- first_line ls; ret (re_match CLCC_REGEX l))
    (fun e => match e with TimeoutException _ => Some (ret None) | _ => None end).
Definition sight_of (c : option way) (o : sight) : Prop :=
  match c, o with
  | Some w, Some (i, d, s, t) => py_int 10 (group 1 w) = Ok i /\ py_int 10 (group 2 w) = Ok d /\ py_int 10 (group 3 w) = Ok s /\ py_int 10 (group 4 w) = Ok t
  | None, None => True
  | _, _ => False
  end.
Definition clcc : str := lit "AT+CLCC".
Lemma line_sight l ls : good_answer (l :: ls) -> exists o, sees (Lines (l :: ls)) o /\ sight_of (re_match CLCC_REGEX l) o.
Proof.
  intro G. destruct (re_match CLCC_REGEX l) as [w|] eqn:R.
  - destruct (clcc_match_inv _ _ R) as (ds & d & s & t & G1 & G2 & G3 & G4 & D & Dd & Ds & Dt & C). eexists. split; [eapply se_call; eauto|]. cbn. rewrite G1, G2, G3, G4.
    assert (P : forall c, is_digit c = true -> py_int 10 [c] = Ok (c - 48)) by (intros c H; rewrite py_int_digits; [reflexivity|split; [discriminate|auto]]).
    rewrite py_int_digits by auto. auto.
  - exists None. split; [|cbn; auto]. apply se_none; auto. intros i d s t C. apply clcc_match in C as (w & C). congruence.
Qed.
Lemma round_spec {X} (L : modem -> X) w : (forall v m, L (set_writeWait v m) = L m) ->
  match poll_query w with
  | Done (Ok c) w' => exists busy codes r o, script w = busy ++ r :: script w' /\ all_busy busy codes /\ sees r o /\ sight_of c o /\
      asked (trace w') = asked (trace w) ++ map (ask clcc) (busy ++ [r]) /\ L (dev w') = L (dev w)
  | Done (Err e) w' => exists busy codes r, script w = busy ++ r :: script w' /\ all_busy busy codes /\ outcome clcc r (Err e) /\ (forall d, e <> TimeoutException d) /\
      asked (trace w') = asked (trace w) ++ map (ask clcc) (busy ++ [r]) /\ L (dev w') = L (dev w)
  | Stuck w' => exists busy codes, script w = busy /\ all_busy busy codes /\ asked (trace w') = asked (trace w) ++ map (ask clcc) busy /\ L (dev w') = L (dev w)
  end.
Proof.
  intro HL. pose proof (keeps_write L clcc CR true HL w) as K. unfold poll_query, try_except, mbind, write. change (lit "AT+CLCC") with clcc.
  destruct (write_with clcc CR true w) as [[ls|e] w1|w1] eqn:W; cbn [last_of] in K.
  - apply ask_ok in W as (busy & codes & E & B & G & A). destruct ls as [|l ls]; [destruct G as ([|? ?] & ? & X0 & _); discriminate X0|].
    cbn [first_line ret]. destruct (line_sight l ls G) as (o & S & SO). exists busy, codes, (Lines (l :: ls)), o. repeat split; auto.
  - apply write_done in W as (busy & codes & r & E & B & NB & O & D & T).
    assert (A : asked (trace w1) = asked (trace w) ++ map (ask clcc) (busy ++ [r])) by (rewrite T, asked_app, asked_attempts; auto).
    assert (Q : (forall d, e <> TimeoutException d) \/ exists d, e = TimeoutException d) by (destruct e; eauto; left; congruence).
    destruct Q as [N|(d & ->)].
    + assert (X0 : match e with TimeoutException _ => Some (@ret (option way) None) | _ => None end = None) by (destruct e; auto; destruct (N data); auto).
      rewrite X0. exists busy, codes, r. repeat split; auto.
    + cbn [ret]. exists busy, codes, r, None. repeat split; auto. inversion O; subst; try constructor; match goal with H : exception_for _ _ _ _ |- _ => inversion H end.
  - destruct (write_any clcc CR w) as [(busy & codes & r & rest & x & _ & _ & _ & _ & W')|(busy & codes & w0 & E & B & W')]; [congruence|].
    clear W'. unfold write_with in W. rewrite E in W. apply (stuck_attempts _ _ _ _ B) in W as (evs & T & R).
    exists busy, codes. repeat split; auto. rewrite T, asked_app. f_equal.
    specialize (R (NoReply [])). apply (f_equal asked) in R. rewrite asked_app, !asked_attempts, map_app in R. cbn [app map] in R.
    apply app_inv_tail in R. auto.
Qed.

(** ** The loop *)
Definition fin (al : list bool) (up : list sight -> Prop) (os : list sight) (over : bool) (failed : option exn) (used : list reply) (o : out unit) : Prop :=
  match failed, o with
  | Some e, Done x _ => x = Err e /\ rounds used os
  | Some _, Stuck _ => False
  | None, Done (Ok _) _ => rounds used os /\ (over = true \/ over = false /\ closed_at al (length os)) /\ ~ up os
  | None, Done (Err e) _ => over = false /\ (rounds used os /\ e = TimeoutException None /\ up os \/
      exists u busy codes r, used = u ++ busy ++ [r] /\ rounds u os /\ all_busy busy codes /\ outcome (lit "AT+CLCC") r (Err e) /\ (forall d, e <> TimeoutException d) /\ ~ up os)
  | None, Stuck _ => over = false /\ exists u busy codes, used = u ++ busy /\ rounds u os /\ all_busy busy codes /\ ~ up os
  end /\
  (forall a b, os = a ++ b -> b <> [] -> ~ up a) /\ (forall k, (k < length os)%nat -> ~ closed_at al k).
Definition alive_tail (al : list bool) : bool * list bool := match al with b :: l => (b, l) | [] => (true, []) end.
Lemma closed_next al al' k : alive_tail al = (true, al') -> closed_at al (S k) <-> closed_at al' k.
Proof. unfold closed_at. destruct al as [|b al]; cbn [alive_tail]; intro E; inversion E; subst; cbn [nth_error]; [|tauto]. destruct k; cbn; tauto. Qed.
Lemma closed_now al al' b : alive_tail al = (b, al') -> closed_at al 0 <-> b = false.
Proof. unfold closed_at. destruct al as [|x al]; cbn [alive_tail nth_error]; intro E; inversion E; subst; split; congruence. Qed.
Lemma fin_cons al al' (up up' : list sight -> Prop) x os over failed busy codes r used o : alive_tail al = (true, al') -> (forall l, up (x :: l) <-> up' l) -> ~ up [] ->
  all_busy busy codes -> sees r x -> fin al' up' os over failed used o -> fin al up (x :: os) over failed (busy ++ r :: used) o.
Proof.
  intros Ha Hu N0 B S (F1 & F2 & F3). split; [|split].
  - destruct failed as [e0|]; [destruct o as [x0 w'|w']; [|auto]; destruct F1 as (E & R); split; auto; econstructor; eauto|].
    destruct o as [[?|e] w'|w'].
    + destruct F1 as (R & O & U). repeat split; [econstructor; eauto| |rewrite Hu; auto]. destruct O as [O|(O & C)]; auto. right. split; auto. cbn [length]. eapply closed_next; eauto.
    + destruct F1 as (O & [(R & E & U)|(u & busy' & codes' & r' & E & R & B' & O' & N & U)]); split; auto.
      * left. repeat split; [econstructor; eauto|auto|apply Hu; auto].
      * right. exists (busy ++ r :: u), busy', codes', r'. rewrite E. rewrite <- app_assoc. cbn [app]. repeat split; auto; [econstructor; eauto|rewrite Hu; auto].
    + destruct F1 as (O & (u & busy' & codes' & E & R & B' & U)). split; auto. exists (busy ++ r :: u), busy', codes'. rewrite E, <- app_assoc. cbn [app].
      repeat split; auto; [econstructor; eauto|rewrite Hu; auto].
  - intros [|y a] b E Nb; auto. injection E as <- E. rewrite Hu. eauto.
  - intros [|k] Hk; [rewrite (closed_now _ _ _ Ha); discriminate|]. rewrite (closed_next _ _ _ Ha). apply F3. cbn in Hk. lia.
Qed.
(** one round in which the command fails, or is not answered *)
Lemma fin_error al (up : list sight -> Prop) busy codes r e w' : ~ up [] -> all_busy busy codes -> outcome clcc r (Err e) -> (forall d, e <> TimeoutException d) ->
  fin al up [] false None (busy ++ [r]) (Done (Err e) w').
Proof.
  intros U B O N. split; [|split].
  - split; auto. right. exists [], busy, codes, r. repeat split; auto. constructor.
  - intros a b E Nb. symmetry in E. apply app_eq_nil in E as [-> ->]. congruence.
  - cbn. intros k Hk. lia.
Qed.
Lemma fin_stuck al (up : list sight -> Prop) busy codes w' : ~ up [] -> all_busy busy codes -> fin al up [] false None busy (Stuck w').
Proof.
  intros U B. split; [|split].
  - split; auto. exists [], busy, codes. repeat split; auto. constructor.
  - intros a b E Nb. symmetry in E. apply app_eq_nil in E as [-> ->]. congruence.
  - cbn. intros k Hk. lia.
Qed.
(** the last round *)
Lemma fin_over al al' (up : list sight -> Prop) busy codes r x w' : alive_tail al = (true, al') -> ~ up [] -> ~ up [x] -> all_busy busy codes -> sees r x ->
  fin al up [x] true None (busy ++ [r]) (Done (Ok tt) w').
Proof.
  intros Ha U U1 B S. split; [|split].
  - repeat split; auto. econstructor; eauto. constructor.
  - intros [|y a] b E Nb; auto. injection E as <- E. symmetry in E. apply app_eq_nil in E as [-> ->]. congruence.
  - cbn. intros k Hk. replace k with 0%nat by lia. rewrite (closed_now _ _ _ Ha). discriminate.
Qed.
Lemma fin_failed al al' (up : list sight -> Prop) over busy codes r x e w' : alive_tail al = (true, al') -> ~ up [] -> all_busy busy codes -> sees r x ->
  fin al up [x] over (Some e) (busy ++ [r]) (Done (Err e) w').
Proof.
  intros Ha U B S. split; [|split].
  - split; auto. econstructor; eauto. constructor.
  - intros [|y a] b E Nb; auto. injection E as <- E. symmetry in E. apply app_eq_nil in E as [-> ->]. congruence.
  - cbn. intros k Hk. replace k with 0%nat by lia. rewrite (closed_now _ _ _ Ha). discriminate.
Qed.
Lemma fin_closed al al' (up : list sight -> Prop) w' : alive_tail al = (false, al') -> ~ up [] -> fin al up [] false None [] (Done (Ok tt) w').
Proof.
  intros Ha U. split; [|split].
  - repeat split; auto; [constructor|]. right. split; auto. cbn. apply (closed_now _ _ _ Ha). auto.
  - intros a b E Nb. symmetry in E. apply app_eq_nil in E as [-> ->]. congruence.
  - cbn. intros k Hk. lia.
Qed.

Definition rep2 (id : Z) (os : list sight) (reps : list report) (over : bool) : Prop :=
  Forall (fun o => o <> None) os /\ reps = [] /\ over = false \/ (exists c, os = c ++ [None] /\ Forall (fun o => o <> None) c) /\ reps = [CallEnded (Some id)] /\ over = true.
Definition rep1 (id : Z) (os : list sight) (reps : list report) (over : bool) : Prop :=
  Forall pending os /\ reps = [] /\ over = false \/ (exists b, os = b ++ [None] /\ Forall pending b) /\ reps = [Rejected (Some id)] /\ over = true \/
  exists b o' id' c reps', os = b ++ o' :: c /\ Forall pending b /\ active o' id' /\ rep2 id' c reps' over /\ reps = Answered id' :: reps'.
Lemma rep2_cons id x os reps over : x <> None -> rep2 id os reps over -> rep2 id (x :: os) reps over.
Proof.
  intros N [(F & -> & ->)|((c & -> & F) & -> & ->)]; [left; repeat split; auto|right; repeat split; auto].
  exists (x :: c). split; auto.
Qed.
Lemma rep1_cons id x os reps over : pending x -> rep1 id os reps over -> rep1 id (x :: os) reps over.
Proof.
  intros N [(F & -> & ->)|[((c & -> & F) & -> & ->)|(b & o' & id' & c & reps' & -> & F & A & R & ->)]]; [left; repeat split; auto| |].
  - right; left; repeat split; auto. exists (x :: c). split; auto.
  - right; right. exists (x :: b), o', id', c, reps'. repeat split; auto.
Qed.
Lemma rep0_cons x os reps over : not_dialling x -> reported os reps over -> reported (x :: os) reps over.
Proof.
  intros N R. destruct R.
  - apply re_waiting. auto.
  - apply (re_initiated (x :: a)); auto.
  - apply (re_rejected (x :: a)); auto.
  - apply (re_answered (x :: a)); auto.
  - apply (re_ended (x :: a)); auto.
Qed.
Lemma rep0_dial x id ty os reps over : dialling x id ty -> rep1 id os reps over -> reported (x :: os) (Initiated id ty :: reps) over.
Proof.
  intros D [(F & -> & ->)|[((c & -> & F) & -> & ->)|(b & o' & id' & c & reps' & -> & F & A & R & ->)]].
  - apply (re_initiated []); auto.
  - apply (re_rejected []); auto.
  - destruct R as [(F2 & -> & ->)|((c2 & -> & F2) & -> & ->)].
    + apply (re_answered []); auto.
    + apply (re_ended []); auto.
Qed.

Definition poll_next (h : poll_handlers) (fuel' : nat) (alive_at' : list bool) (expectedState : Z) (callId : option Z) (timeLeft : Z) (clcc : option way) : M unit :=
        match clcc with
        | Some w =>
            do direction <- lift (py_int 10 (group 2 w));
            if direction =? 0 then
              do stat <- lift (py_int 10 (group 3 w));
              if (expectedState =? 0) then
                if (stat =? 2) || (stat =? 3) then
                  do callId <- lift (py_int 10 (group 1 w));
                  do callType <- lift (py_int 10 (group 4 w));
                  on_initiated h callId callType ;;;
                  poll_loop h fuel' alive_at' 1 (Some callId) timeLeft
                else poll_loop h fuel' alive_at' expectedState callId timeLeft
              else if expectedState =? 1 then
                if stat =? 0 then
                  do callId <- lift (py_int 10 (group 1 w));
                  on_answered h callId ;;;
                  poll_loop h fuel' alive_at' 2 (Some callId) timeLeft
                else poll_loop h fuel' alive_at' expectedState callId timeLeft
              else poll_loop h fuel' alive_at' expectedState callId timeLeft
            else poll_loop h fuel' alive_at' expectedState callId timeLeft
        | None =>
            if expectedState =? 2 then
              on_ended h callId ;;; (if timeLeft <=? 0 then raise (TimeoutException None) else ret tt)
            else if expectedState =? 1 then
              on_rejected h callId ;;; (if timeLeft <=? 0 then raise (TimeoutException None) else ret tt)
            else poll_loop h fuel' alive_at' expectedState callId timeLeft
        end.
Lemma poll_step h f al al' e cid n w : alive_tail al = (true, al') -> 0 < n ->
  poll_loop h (S f) al e cid n w = mbind poll_query (poll_next h f al' e cid (if e =? 0 then n - 1 else n)) (mk_world (dev w) (script w) (trace w ++ [ESleep 5])).
Proof.
  intros Ha N. assert (E : (0 <? n) = true) by (apply Z.ltb_lt; auto). cbn [poll_loop].
  destruct al as [|b al]; cbn [alive_tail] in Ha; inversion Ha; subst; rewrite E; cbn [andb]; reflexivity.
Qed.
Lemma poll_stop h f al al' b e cid n w : alive_tail al = (b, al') -> b && (0 <? n) = false ->
  poll_loop h (S f) al e cid n w = if n <=? 0 then Done (Err (TimeoutException None)) w else Done (Ok tt) w.
Proof.
  intros Ha E. cbn [poll_loop]. destruct al as [|b' al]; cbn [alive_tail] in Ha; inversion Ha; subst; rewrite E; destruct (n <=? 0); reflexivity.
Qed.

Section loop.
Context {K : Type}.
Variable L : modem -> K.
Variable step : K -> report -> res unit -> K -> Prop.
Variable h : poll_handlers.
Hypothesis HL : performing L step h.
Definition loop_ok (al : list bool) (up : list sight -> Prop) (rep : list sight -> list report -> bool -> Prop) (w : world) (o : out unit) : Prop :=
  exists used os reps over failed, asked (trace (last_of o)) = asked (trace w) ++ map (ask clcc) used /\ performed step (L (dev w)) reps failed (L (dev (last_of o))) /\
    rep os reps over /\ fin al up os over failed used o /\ match o with Done _ w' => script w = used ++ script w' | Stuck _ => script w = used end.
Lemma query_spec w : let w0 := mk_world (dev w) (script w) (trace w ++ [ESleep 5]) in
  match poll_query w0 with
  | Done (Ok c) w' => exists busy codes r o, script w = busy ++ r :: script w' /\ all_busy busy codes /\ sees r o /\ sight_of c o /\
      asked (trace w') = asked (trace w) ++ map (ask clcc) (busy ++ [r]) /\ L (dev w') = L (dev w)
  | Done (Err e) w' => exists busy codes r, script w = busy ++ r :: script w' /\ all_busy busy codes /\ outcome clcc r (Err e) /\ (forall d, e <> TimeoutException d) /\
      asked (trace w') = asked (trace w) ++ map (ask clcc) (busy ++ [r]) /\ L (dev w') = L (dev w)
  | Stuck w' => exists busy codes, script w = busy /\ all_busy busy codes /\ asked (trace w') = asked (trace w) ++ map (ask clcc) busy /\ L (dev w') = L (dev w)
  end.
Proof.
  intro w0. pose proof (round_spec L w0 (proj2 (proj2 (proj2 (proj2 HL))))) as Q. cbn [w0 script dev trace] in Q. rewrite asked_app in Q. cbn [asked] in Q. rewrite app_nil_r in Q. exact Q.
Qed.
(** a round followed by the rest of the loop *)
Lemma loop_round al al' (up up' : list sight -> Prop) (rep rep' : list sight -> list report -> bool -> Prop) w w1 w2 x busy codes r o new : alive_tail al = (true, al') ->
  (forall l, up (x :: l) <-> up' l) -> ~ up [] -> (forall os reps over, rep' os reps over -> rep (x :: os) (new ++ reps) over) ->
  script w = busy ++ r :: script w1 -> all_busy busy codes -> sees r x -> asked (trace w1) = asked (trace w) ++ map (ask clcc) (busy ++ [r]) -> L (dev w1) = L (dev w) ->
  script w2 = script w1 -> asked (trace w2) = asked (trace w1) -> (forall reps f k, performed step (L (dev w2)) reps f k -> performed step (L (dev w1)) (new ++ reps) f k) ->
  loop_ok al' up' rep' w2 o -> loop_ok al up rep w o.
Proof.
  intros Ha Hu Un Hr Es B S A D Es2 A2 D2 (used & os & reps & over & failed & A' & D' & R & F & Sc).
  exists (busy ++ r :: used), (x :: os), (new ++ reps), over, failed. split; [|split; [|split; [|split]]].
  - rewrite A', A2, A, !map_app. cbn [map]. rewrite <- !app_assoc. reflexivity.
  - rewrite <- D. auto.
  - auto.
  - eapply fin_cons; eauto.
  - destruct o; rewrite Es, <- Es2, Sc; [rewrite <- app_assoc|]; reflexivity.
Qed.
Lemma loop_error al (up : list sight -> Prop) (rep : list sight -> list report -> bool -> Prop) w w' busy codes r e : ~ up [] -> rep [] [] false ->
  script w = busy ++ r :: script w' -> all_busy busy codes -> outcome clcc r (Err e) -> (forall d, e <> TimeoutException d) ->
  asked (trace w') = asked (trace w) ++ map (ask clcc) (busy ++ [r]) -> L (dev w') = L (dev w) -> loop_ok al up rep w (Done (Err e) w').
Proof.
  intros U R Es B O N A D. exists (busy ++ [r]), [], [], false, None. split; [exact A|]. split; [cbn [last_of]; rewrite D; constructor|]. split; auto.
  split; [eapply fin_error; eauto|]. rewrite Es, <- app_assoc. reflexivity.
Qed.
Lemma loop_stuck al (up : list sight -> Prop) (rep : list sight -> list report -> bool -> Prop) w w' busy codes : ~ up [] -> rep [] [] false ->
  script w = busy -> all_busy busy codes -> asked (trace w') = asked (trace w) ++ map (ask clcc) busy -> L (dev w') = L (dev w) -> loop_ok al up rep w (Stuck w').
Proof.
  intros U R Es B A D. exists busy, [], [], false, None. split; [exact A|]. split; [cbn [last_of]; rewrite D; constructor|]. split; auto.
  split; [eapply fin_stuck; eauto|auto].
Qed.
Lemma loop_over al al' (up : list sight -> Prop) (rep : list sight -> list report -> bool -> Prop) w w1 w2 busy codes r new : alive_tail al = (true, al') -> ~ up [] -> ~ up [None] ->
  rep [None] [new] true -> script w = busy ++ r :: script w1 -> all_busy busy codes -> sees r None -> asked (trace w1) = asked (trace w) ++ map (ask clcc) (busy ++ [r]) -> L (dev w1) = L (dev w) ->
  script w2 = script w1 -> asked (trace w2) = asked (trace w1) -> step (L (dev w1)) new (Ok tt) (L (dev w2)) -> loop_ok al up rep w (Done (Ok tt) w2).
Proof.
  intros Ha U U1 R Es B S A D Es2 A2 D2. exists (busy ++ [r]), [None], [new], true, None. split; [cbn [last_of]; congruence|]. split; [cbn [last_of]; rewrite <- D; repeat (econstructor; eauto)|]. split; auto.
  split; [eapply fin_over; eauto|]. rewrite Es2, Es, <- app_assoc. reflexivity.
Qed.
Lemma loop_failed al al' (up : list sight -> Prop) (rep : list sight -> list report -> bool -> Prop) w w1 w2 x busy codes r new over e : alive_tail al = (true, al') -> ~ up [] ->
  rep [x] [new] over -> script w = busy ++ r :: script w1 -> all_busy busy codes -> sees r x -> asked (trace w1) = asked (trace w) ++ map (ask clcc) (busy ++ [r]) -> L (dev w1) = L (dev w) ->
  script w2 = script w1 -> asked (trace w2) = asked (trace w1) -> step (L (dev w1)) new (Err e) (L (dev w2)) -> loop_ok al up rep w (Done (Err e) w2).
Proof.
  intros Ha U R Es B S A D Es2 A2 D2. exists (busy ++ [r]), [x], [new], over, (Some e). split; [cbn [last_of]; congruence|]. split; [cbn [last_of]; rewrite <- D; apply pe_failed; auto|]. split; auto.
  split; [eapply fin_failed; eauto|]. rewrite Es2, Es, <- app_assoc. reflexivity.
Qed.
Lemma loop_closed al al' (up : list sight -> Prop) (rep : list sight -> list report -> bool -> Prop) w : alive_tail al = (false, al') -> ~ up [] -> rep [] [] false -> loop_ok al up rep w (Done (Ok tt) w).
Proof.
  intros Ha U R. exists [], [], [], false, None. cbn [last_of map]. rewrite !app_nil_r. repeat split; auto; try apply (fin_closed _ _ _ w Ha U). constructor.
Qed.
Lemma step_one k r k1 : step k r (Ok tt) k1 -> forall reps f k2, performed step k1 reps f k2 -> performed step k ([r] ++ reps) f k2.
Proof. intros S reps f k2 P. econstructor; eauto. Qed.
Definition never (os : list sight) : Prop := False.
Ltac easy_end := first [discriminate|tauto|auto].
Ltac pints H := destruct H as (?P1 & ?P2 & ?P3 & ?P4).

Lemma loop2 id n f : forall al w, 0 < n -> (length (script w) < f)%nat -> loop_ok al never (rep2 id) w (poll_loop h f al 2 (Some id) n w).
Proof.
  induction f as [|f IH]; intros al w N Hf; [lia|]. destruct (alive_tail al) as [b al'] eqn:Ha.
  assert (R0 : rep2 id [] [] false) by (left; auto). assert (E : (0 <? n) = true) by (apply Z.ltb_lt; auto). assert (E' : (n <=? 0) = false) by (apply Z.leb_gt; auto).
  destruct b.
  2:{ rewrite (poll_stop _ _ _ _ _ _ _ _ _ Ha) by auto. rewrite E'. eapply loop_closed; eauto. }
  rewrite (poll_step _ _ _ _ _ _ _ _ Ha N). change (2 =? 0) with false. cbn iota. pose proof (query_spec w) as Q. cbn zeta in Q. unfold mbind at 1.
  destruct (poll_query _) as [[c|e] w1|w1].
  - destruct Q as (busy & codes & r & o & Es & B & S & SO & A & D).
    assert (Hf' : (length (script w1) < f)%nat) by (rewrite Es, app_length in Hf; cbn in Hf; lia).
    assert (Go : forall x, o = Some x -> loop_ok al never (rep2 id) w (poll_loop h f al' 2 (Some id) n w1)).
    { intros x ->. eapply (loop_round al al' never never (rep2 id) (rep2 id) w w1 w1 (Some x) busy codes r _ []); eauto; try tauto.
      intros os reps over R. apply rep2_cons; [discriminate|auto]. }
    destruct c as [wy|], o as [[[[i d] s] t]|]; cbn in SO; try contradiction.
    + destruct SO as (P1 & P2 & P3 & P4). unfold poll_next, mbind at 1, lift. rewrite P2. destruct (d =? 0); [|eauto].
      unfold mbind at 1, lift. rewrite P3. cbn. eauto.
    + unfold poll_next. change (2 =? 2) with true. cbn iota. destruct (proj1 (proj2 (proj2 HL)) (Some id) w1) as ([[]|e] & w2 & H & HD & HS & HA); unfold mbind; rewrite H;
        [|eapply (loop_failed al al' never (rep2 id) w w1 w2); eauto; right; split; [exists []; auto|auto]].
      rewrite E'. cbn [ret]. eapply (loop_over al al' never (rep2 id) w w1 w2); eauto. right. split; [exists []; auto|auto].
  - destruct Q as (busy & codes & r & Es & B & O & Nt & A & D). eapply loop_error; eauto.
  - destruct Q as (busy & codes & Es & B & A & D). eapply loop_stuck; eauto.
Qed.
Lemma loop1 id n f : forall al w, 0 < n -> (length (script w) < f)%nat -> loop_ok al never (rep1 id) w (poll_loop h f al 1 (Some id) n w).
Proof.
  induction f as [|f IH]; intros al w N Hf; [lia|]. destruct (alive_tail al) as [b al'] eqn:Ha.
  assert (R0 : rep1 id [] [] false) by (left; auto). assert (E : (0 <? n) = true) by (apply Z.ltb_lt; auto). assert (E' : (n <=? 0) = false) by (apply Z.leb_gt; auto).
  destruct b.
  2:{ rewrite (poll_stop _ _ _ _ _ _ _ _ _ Ha) by auto. rewrite E'. eapply loop_closed; eauto. }
  rewrite (poll_step _ _ _ _ _ _ _ _ Ha N). change (1 =? 0) with false. cbn iota. pose proof (query_spec w) as Q. cbn zeta in Q. unfold mbind at 1.
  destruct (poll_query _) as [[c|e] w1|w1].
  - destruct Q as (busy & codes & r & o & Es & B & S & SO & A & D).
    assert (Hf' : (length (script w1) < f)%nat) by (rewrite Es, app_length in Hf; cbn in Hf; lia).
    assert (Go : pending o -> loop_ok al never (rep1 id) w (poll_loop h f al' 1 (Some id) n w1)).
    { intros Hp. eapply (loop_round al al' never never (rep1 id) (rep1 id) w w1 w1 o busy codes r _ []); eauto; try tauto.
      intros os reps over R. apply rep1_cons; auto. }
    destruct c as [wy|], o as [[[[i d] s] t]|]; cbn in SO; try contradiction.
    + destruct SO as (P1 & P2 & P3 & P4). unfold poll_next, mbind at 1, lift. rewrite P2. destruct (Z.eqb_spec d 0) as [->|Nd].
      2:{ apply Go. split; [discriminate|]. intros j (ty & X). congruence. }
      unfold mbind at 1, lift. rewrite P3. cbn [Z.eqb Pos.eqb]. destruct (Z.eqb_spec s 0) as [->|Ns].
      2:{ apply Go. split; [discriminate|]. intros j (ty & X). congruence. }
      unfold mbind at 1, lift. rewrite P1. destruct (proj1 (proj2 HL) i w1) as ([[]|e] & w2 & H & HD & HS & HA); unfold mbind; rewrite H.
      2:{ eapply (loop_failed al al' never (rep1 id) w w1 w2); eauto. right. right. exists [], (Some (i, 0, 0, t)), i, [], []. repeat split; auto; [exists t; auto|]. left. auto. }
      eapply (loop_round al al' never never (rep1 id) (rep2 i) w w1 w2 _ busy codes r _ [Answered i]); eauto using step_one; try tauto.
      * intros os reps over R. right. right. exists [], (Some (i, 0, 0, t)), i, os, reps. repeat split; auto. exists t. auto.
      * apply loop2; auto. rewrite HS. auto.
    + unfold poll_next. change (1 =? 2) with false. change (1 =? 1) with true. cbn iota. destruct (proj1 (proj2 (proj2 (proj2 HL))) (Some id) w1) as ([[]|e] & w2 & H & HD & HS & HA); unfold mbind; rewrite H;
        [|eapply (loop_failed al al' never (rep1 id) w w1 w2); eauto; right; left; split; [exists []; auto|auto]].
      rewrite E'. cbn [ret]. eapply (loop_over al al' never (rep1 id) w w1 w2); eauto. right. left. split; [exists []; auto|auto].
  - destruct Q as (busy & codes & r & Es & B & O & Nt & A & D). eapply loop_error; eauto.
  - destruct Q as (busy & codes & Es & B & A & D). eapply loop_stuck; eauto.
Qed.
Lemma loop_time al (up : list sight -> Prop) (rep : list sight -> list report -> bool -> Prop) w : up [] -> rep [] [] false -> loop_ok al up rep w (Done (Err (TimeoutException None)) w).
Proof.
  intros U R. exists [], [], [], false, None. cbn [last_of map]. rewrite !app_nil_r. repeat split; auto.
  - constructor.
  - left. repeat split; auto. constructor.
  - intros a b E Nb. symmetry in E. apply app_eq_nil in E as [-> ->]. congruence.
  - cbn. intros k Hk. lia.
Qed.
Lemma time_next n x l : 0 < n -> not_dialling x -> time_up n (x :: l) <-> time_up (n - 1) l.
Proof.
  intros N Hx. unfold time_up. cbn [length]. split; intros [A B]; split; try lia.
  - destruct l as [|y l]; [constructor|]. cbn [removelast] in *. inversion B; auto.
  - destruct l as [|y l]; [constructor|]. cbn [removelast] in *. constructor; auto.
Qed.
Lemma loop0 f : forall n al w, (length (script w) < f)%nat -> loop_ok al (time_up n) reported w (poll_loop h f al 0 None n w).
Proof.
  induction f as [|f IH]; intros n al w Hf; [lia|]. destruct (alive_tail al) as [b al'] eqn:Ha.
  assert (R0 : reported [] [] false) by (apply re_waiting; auto).
  destruct (Z.le_gt_cases n 0) as [Nn|N].
  { rewrite (poll_stop _ _ _ _ _ _ _ _ _ Ha). 2:{ assert (X : (0 <? n) = false) by (apply Z.ltb_ge; auto). rewrite X. destruct b; auto. }
    assert (X : (n <=? 0) = true) by (apply Z.leb_le; auto). rewrite X. apply loop_time; auto. split; [cbn; lia|constructor]. }
  assert (E : (0 <? n) = true) by (apply Z.ltb_lt; auto). assert (E' : (n <=? 0) = false) by (apply Z.leb_gt; auto).
  assert (U : ~ time_up n []) by (intros [X _]; cbn in X; lia).
  destruct b.
  2:{ rewrite (poll_stop _ _ _ _ _ _ _ _ _ Ha) by auto. rewrite E'. eapply loop_closed; eauto. }
  rewrite (poll_step _ _ _ _ _ _ _ _ Ha N). change (0 =? 0) with true. cbn iota. pose proof (query_spec w) as Q. cbn zeta in Q. unfold mbind at 1.
  destruct (poll_query _) as [[c|e] w1|w1].
  - destruct Q as (busy & codes & r & o & Es & B & S & SO & A & D).
    assert (Hf' : (length (script w1) < f)%nat) by (rewrite Es, app_length in Hf; cbn in Hf; lia).
    assert (Go : not_dialling o -> loop_ok al (time_up n) reported w (poll_loop h f al' 0 None (n - 1) w1)).
    { intros Hp. eapply (loop_round al al' (time_up n) (time_up (n - 1)) reported reported w w1 w1 o busy codes r _ []); eauto; [|intros os reps over R; apply rep0_cons; auto].
      intro l. apply time_next; auto. }
    destruct c as [wy|], o as [[[[i d] s] t]|]; cbn in SO; try contradiction.
    + destruct SO as (P1 & P2 & P3 & P4). unfold poll_next, mbind at 1, lift. rewrite P2. destruct (Z.eqb_spec d 0) as [->|Nd].
      2:{ apply Go. intros j ty (st & X & _). congruence. }
      unfold mbind at 1, lift. rewrite P3. cbn [Z.eqb]. destruct ((s =? 2) || (s =? 3)) eqn:Hs.
      2:{ apply Go. intros j ty (st & X & Y). apply orb_false_iff in Hs as [H2 H3]. apply Z.eqb_neq in H2, H3. assert (st = s) by congruence. lia. }
      assert (Dl : dialling (Some (i, 0, s, t)) i t). { exists s. split; auto. apply orb_true_iff in Hs as [H2|H2]; apply Z.eqb_eq in H2; auto. }
      unfold mbind at 1, lift. rewrite P1. unfold mbind at 1, lift. rewrite P4. destruct (proj1 HL i t w1) as ([[]|e] & w2 & H & HD & HS & HA); unfold mbind; rewrite H.
      2:{ eapply (loop_failed al al' (time_up n) reported w w1 w2 _ busy codes r _ false); eauto. apply (rep0_dial _ i t []); auto. left. auto. }
      destruct (Z.le_gt_cases (n - 1) 0) as [N1|N1].
      * destruct f as [|f']; [lia|]. destruct (alive_tail al') as [b'' al''] eqn:Ha'. rewrite (poll_stop _ _ _ _ _ _ _ _ _ Ha').
        2:{ assert (X : (0 <? n - 1) = false) by (apply Z.ltb_ge; auto). rewrite X. destruct b''; auto. }
        assert (X : (n - 1 <=? 0) = true) by (apply Z.leb_le; auto). rewrite X.
        eapply (loop_round al al' (time_up n) (fun l => l = []) reported (rep1 i) w w1 w2 _ busy codes r _ [Initiated i t]); eauto using step_one.
        -- intro l. unfold time_up. cbn [length]. split.
           ++ intros [Y _]. destruct l; auto. cbn [length] in Y. lia.
           ++ intros ->. split; [cbn; lia|constructor].
        -- intros os reps over R. apply rep0_dial; auto.
        -- apply loop_time; auto. left. auto.
      * eapply (loop_round al al' (time_up n) never reported (rep1 i) w w1 w2 _ busy codes r _ [Initiated i t]); eauto using step_one.
        -- intro l. split; [|intros []]. intros [Y Z0]. destruct l as [|y l]; [cbn in Y; lia|]. cbn [removelast] in Z0. inversion Z0 as [|? ? Hn]; subst. exact (Hn _ _ Dl).
        -- intros os reps over R. apply rep0_dial; auto.
        -- apply loop1; [lia|]. rewrite HS. auto.
    + unfold poll_next. change (0 =? 2) with false. change (0 =? 1) with false. cbn iota. apply Go. intros j ty (st & X & _). discriminate.
  - destruct Q as (busy & codes & r & Es & B & O & Nt & A & D). eapply loop_error; eauto.
  - destruct Q as (busy & codes & Es & B & A & D). eapply loop_stuck; eauto.
Qed.
End loop.
Theorem poll_reports {K} (L : modem -> K) step h al n m sc : performing L step h -> let o := poll_loop h (S (length sc)) al 0 None n (start m sc) in exists used os reps over failed,
  asked (trace (last_of o)) = map (ask (lit "AT+CLCC")) used /\ performed step (L m) reps failed (L (dev (last_of o))) /\ reported os reps over /\ poll_ends al n os over failed used o.
Proof.
  intros HL o. destruct (loop0 L step h HL (S (length sc)) n al (start m sc)) as (used & os & reps & over & failed & A & D & R & F & _); [cbn; lia|].
  exists used, os, reps, over, failed. auto.
Qed.
