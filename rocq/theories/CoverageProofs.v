(** Signal strength and waitForNetworkCoverage. *)
From Verif Require Import Base RegexModel RegexProofs UtilModel UtilSpec UtilProofs ModemCore ModemSpec WriteProofs MonadProofs SendSpec SendProofs LangProofs CoverageSpec.

Lemma digit_nonspace c : is_digit c = true -> is_space c = false.
Proof. intro D. apply digit_range in D. unfold is_space. destruct c as [|p|p]; cbn; try lia; auto. Qed.
Lemma blank_digit_split (sp sp' x y : str) c c' : blank sp -> blank sp' -> is_digit c = true -> is_digit c' = true ->
  sp ++ c :: x = sp' ++ c' :: y -> sp = sp' /\ c = c' /\ x = y.
Proof.
  intros B B' D D' E. apply (span_unique is_space) in E as [-> E]; auto; cbn; try apply digit_nonspace; auto. injection E as -> ->. auto.
Qed.

Lemma creg_match line st : creg_line line st -> exists t n c rest, re_match CREG_REGEX line = Some (t, [[n]; [c]], rest) /\ is_digit c = true /\ st = c - 48.
Proof.
  intros (sp & n & s & nl & -> & B & Dn & Ds & E & ->).
  exists (lit "+CREG:" ++ sp ++ [n; 44; s]), n, s, nl. split; auto. apply re_match_unique.
  - rewrite <- !app_assoc. auto.
  - unfold CREG_REGEX. apply seq_lit. eexists. split; [reflexivity|]. apply seq_star. exists sp, [n; 44; s]. repeat split; auto.
    apply seq_gcls. exists n, [44; s], [[s]]. repeat split; auto. apply seq_lit. exists [s]. split; auto. apply seq_gcls. exists s, [], []. repeat split; auto.
  - intros t' g' rest' Es L. unfold CREG_REGEX in L. lang_inv L. rewrite <- !app_assoc in Es. apply app_inv_head in Es.
    cbn in Es. destruct (blank_digit_split _ _ _ _ _ _ B F Dn F0 Es) as (-> & -> & Es'). injection Es' as -> ->. auto.
Qed.
Lemma creg_match_inv line t g rest : re_match CREG_REGEX line = Some (t, g, rest) -> exists n c, g = [[n]; [c]] /\ is_digit c = true /\ creg_line line (c - 48).
Proof.
  intro H. apply re_match_some in H as [-> L]. unfold CREG_REGEX in L. lang_inv L. exists c, c0. repeat split; auto.
  exists a, c, c0, rest. rewrite <- !app_assoc. repeat split; auto.
Qed.
Lemma creg_unique line s1 s2 : creg_line line s1 -> creg_line line s2 -> s1 = s2.
Proof.
  intros H1 H2. apply creg_match in H1 as (t & n & c & rest & M & _ & ->). apply creg_match in H2 as (t' & n' & c' & rest' & M' & _ & ->). congruence.
Qed.

(** what the registration line of a response says *)
Lemma creg_cases ls : (exists m st, line_matching CREG_REGEX ls = Some m /\ py_int 10 (group 2 m) = Ok st /\ registration ls st)
  \/ (line_matching CREG_REGEX ls = None /\ no_registration ls).
Proof.
  induction ls as [|l ls IH]; [right; split; [reflexivity|constructor]|]. unfold line_matching in *. cbn [lineMatchingPattern].
  destruct (re_match CREG_REGEX l) as [[[t g] rest]|] eqn:E.
  - left. apply creg_match_inv in E as (n & c & -> & D & C). exists (t, [[n]; [c]], rest), (c - 48). split; auto. split.
    + unfold group. cbn [groups fst snd nth Nat.sub]. rewrite py_int_digits by (repeat constructor; auto; discriminate). unfold dec_value. reflexivity.
    + exists [], l, ls. repeat split; auto.
  - assert (N : forall s, ~ creg_line l s) by (intros s C; apply creg_match in C as (t & n & c & rest & M & _); congruence).
    destruct IH as [(m & st & H1 & H2 & b & l' & a & -> & C & F)|[H1 H2]].
    + left. exists m, st. repeat split; auto. exists (l :: b), l', a. repeat split; auto.
    + right. split; auto. constructor; auto.
Qed.
Lemma registration_unique ls s1 s2 : registration ls s1 -> registration ls s2 -> s1 = s2.
Proof.
  intros (b1 & l1 & a1 & -> & C1 & F1) (b2 & l2 & a2 & E & C2 & F2). revert b2 E F2. induction b1 as [|x b1 IH]; intros [|y b2] E F2; cbn in E.
  - injection E as -> ->. eapply creg_unique; eauto.
  - injection E as -> E. inversion F2; subst. exfalso. eapply H1; eauto.
  - injection E as -> E. inversion F1; subst. exfalso. eapply H1; eauto.
  - injection E as -> E. inversion F1; inversion F2; subst. eapply IH; eauto.
Qed.
Lemma registration_none ls s : registration ls s -> no_registration ls -> False.
Proof. intros (b & l & a & -> & C & _) N. apply Forall_app in N as [_ N]. inversion N; subst. eapply H1; eauto. Qed.

(** ** Signal strength *)
Lemma csq_match line s : csq_line line s -> exists t ds rest, re_match CSQ_REGEX line = Some (t, [ds], rest) /\ digits ds /\ s = dec_value ds.
Proof.
  intros (sp & ds & more & -> & B & [Nd D] & ->). exists (lit "+CSQ:" ++ sp ++ ds ++ [44]), ds, more. split; [|split; [split|]; auto]. apply re_match_unique.
  - rewrite <- !app_assoc. auto.
  - unfold CSQ_REGEX. apply seq_lit. eexists. split; [reflexivity|]. apply seq_star. exists sp, (ds ++ [44]). repeat split; auto.
    apply seq_gplus. exists ds, [44], []. repeat split; auto.
  - intros t' g' rest' Es L. unfold CSQ_REGEX in L. lang_inv L. rewrite <- !app_assoc in Es. apply app_inv_head in Es.
    assert (Hd : forall x y, x <> [] -> Forall (fun c => is_digit c = true) x -> starts_outside is_space (x ++ y)).
    { intros x y Nx F1. destruct x as [|c x]; [congruence|]. inversion F1; subst. cbn. apply digit_nonspace. auto. }
    apply (span_unique is_space) in Es as [-> Es]; auto. apply (span_unique is_digit) in Es as [-> Es]; auto; [|reflexivity|reflexivity]. cbn in Es. injection Es as ->. auto.
Qed.
Lemma csq_match_inv line t g rest : re_match CSQ_REGEX line = Some (t, g, rest) -> exists ds, g = [ds] /\ digits ds /\ csq_line line (dec_value ds).
Proof.
  intro H. apply re_match_some in H as [-> L]. unfold CSQ_REGEX in L. lang_inv L. exists a0. repeat split; auto.
  exists a, a0, rest. rewrite <- !app_assoc. repeat split; auto.
Qed.

(** what is written and answered *)
Lemma asked_app a b : asked (a ++ b) = asked a ++ asked b. Proof. apply flat_map_app. Qed.
Lemma asked_pause w : asked (pause w) = []. Proof. unfold pause. destruct (0 <? w); auto. Qed.
Lemma asked_attempts text busy r : forall wait, asked (attempts text wait busy r) = map (fun b => (text, Some b)) (busy ++ [r]).
Proof.
  induction busy as [|b busy IH]; intro wait; cbn [attempts app map].
  - cbn. f_equal. destruct r; [apply asked_pause|auto].
  - cbn. fold (asked (pause wait ++ ESleep (wait + 2) :: attempts text (wait + 2) busy r)). rewrite asked_app, asked_pause. cbn.
    fold (asked (attempts text (wait + 2) busy r)). rewrite IH. auto.
Qed.
Lemma asked_settled m tr r text : asked (settled m tr r text) = asked tr ++ [(text, Some r)].
Proof. unfold settled. rewrite asked_app. cbn. f_equal. f_equal. destruct r; [apply asked_pause|auto]. Qed.

Lemma good_outcome data ls : good_answer ls -> outcome data (Lines ls) (Ok ls) /\ not_busy (Lines ls).
Proof. intros (b & l & -> & G). split; [constructor; auto|apply good_not_busy; auto]. Qed.
Lemma ask_ok data w ls w' : write data w = Done (Ok ls) w' ->
  exists busy codes, script w = busy ++ Lines ls :: script w' /\ all_busy busy codes /\ good_answer ls /\
    asked (trace w') = asked (trace w) ++ map (ask data) (busy ++ [Lines ls]).
Proof.
  intro H. apply write_done in H as (busy & codes & r & E & B & _ & O & D & T). apply outcome_ok in O as [-> G]. exists busy, codes.
  repeat split; auto. rewrite T, asked_app, asked_attempts. auto.
Qed.
Lemma ask_good data w busy codes ls rest : script w = busy ++ Lines ls :: rest -> all_busy busy codes -> good_answer ls ->
  exists w', write data w = Done (Ok ls) w' /\ script w' = rest /\ asked (trace w') = asked (trace w) ++ map (ask data) (busy ++ [Lines ls]).
Proof.
  intros E B G. destruct (good_outcome data ls G) as [O NB].
  exists (mk_world (set_writeWait (wait_after (Ok ls) (writeWait (dev w)) codes) (dev w)) rest (trace w ++ attempts (data ++ CR) (writeWait (dev w)) busy (Lines ls))).
  split; [|split; [auto|cbn [trace]; rewrite asked_app, asked_attempts; auto]]. apply write_done. exists busy, codes, (Lines ls). cbn [script dev trace]. auto 8.
Qed.

Lemma signal_unique ls a b : signal ls a -> signal ls b -> a = b.
Proof.
  intros (l1 & m1 & s1 & -> & C1 & ->) (l2 & m2 & s2 & [= <- <-] & C2 & ->).
  apply csq_match in C1 as (t & ds & rest & M & _ & ->). apply csq_match in C2 as (t' & ds' & rest' & M' & _ & ->). rewrite M in M'. injection M' as _ <- _. auto.
Qed.
Lemma signal_run ls w : match (do l <- first_line ls;
  match re_match CSQ_REGEX l with
  | Some csq => do ss <- lift (py_int 10 (group 1 csq)); ret (if negb (ss =? 99) then ss else -1)
  | None => raise (CommandError None)
  end) w with
  | Done (Ok ss) w' => signal ls ss /\ w' = w
  | Done (Err e) w' => w' = w /\ (e = IndexError \/ e = CommandError None) /\ forall ss, ~ signal ls ss
  | Stuck _ => False end.
Proof.
  destruct ls as [|l ls]; [cbn; repeat split; auto; intros ss (l & m & s & E & _); discriminate|].
  unfold first_line. unfold mbind at 1, ret at 1. destruct (re_match CSQ_REGEX l) as [[[t g] rest]|] eqn:E.
  - apply csq_match_inv in E as (ds & -> & D & C). unfold group. cbn [groups fst snd nth Nat.sub]. rewrite py_int_digits by (apply D). cbn. split; auto.
    exists l, ls, (dec_value ds). repeat split; auto. destruct (dec_value ds =? 99); auto.
  - cbn. repeat split; auto. intros ss (l' & m & s & [= <- <-] & C & _). apply csq_match in C as (t & ds & rest & M & _). congruence.
Qed.
Lemma strength_ok w ss w' : signalStrength w = Done (Ok ss) w' ->
  exists busy codes ls, script w = busy ++ Lines ls :: script w' /\ all_busy busy codes /\ good_answer ls /\ signal ls ss /\
    asked (trace w') = asked (trace w) ++ map (ask (lit "AT+CSQ")) (busy ++ [Lines ls]).
Proof.
  unfold signalStrength. intro H. apply bind_ok in H as (ls & w1 & W & H). pose proof (signal_run ls w1) as S. rewrite H in S. destruct S as [S ->].
  apply ask_ok in W as (busy & codes & E & B & G & A). exists busy, codes, ls. auto.
Qed.
Lemma strength_good w busy codes ls ss rest : script w = busy ++ Lines ls :: rest -> all_busy busy codes -> good_answer ls -> signal ls ss ->
  exists w', signalStrength w = Done (Ok ss) w' /\ script w' = rest /\ asked (trace w') = asked (trace w) ++ map (ask (lit "AT+CSQ")) (busy ++ [Lines ls]).
Proof.
  intros E B G S. destruct (ask_good (lit "AT+CSQ") w busy codes ls rest E B G) as (w' & W & Es & A). exists w'. split; auto.
  unfold signalStrength. rewrite (bind_run _ _ _ _ _ W). pose proof (signal_run ls w') as R.
  match goal with |- ?o = _ => destruct o as [[s|e] w2|w2] end; [|exfalso; destruct R as (_ & _ & R); eapply R; eauto|contradiction].
  destruct R as [R ->]. rewrite (signal_unique _ _ _ S R). auto.
Qed.

(** ** The loop *)
Lemma busy_weak busy codes : all_busy busy codes -> Forall weak busy.
Proof. induction 1; constructor; auto. left. eauto. Qed.
Lemma asked_sleep tr t : asked (tr ++ [ESleep t]) = asked tr.
Proof. rewrite asked_app. cbn. apply app_nil_r. Qed.

Lemma loop_signal fuel : forall timer w ss w', coverage_loop fuel timer false w = Done (Ok ss) w' ->
  exists W r2, script w = W ++ r2 :: script w' /\ Forall weak W /\ strong r2 ss /\
    asked (trace w') = asked (trace w) ++ map (ask (lit "AT+CSQ")) (W ++ [r2]).
Proof.
  induction fuel as [|fuel IH]; intros timer w ss w' H; [discriminate|]. cbn [coverage_loop] in H.
  destruct timer as [|[] timer]; cbn [fst snd] in H; try discriminate.
  all: apply bind_ok in H as (s & w1 & S & H); apply strength_ok in S as (busy & codes & ls & E & B & G & Sg & A);
    destruct (Z.ltb_spec 0 s) as [P|P];
    [injection H as <- <-; exists busy, (Lines ls); repeat split; auto; [eapply busy_weak; eauto|exists ls; auto]|];
    apply bind_ok in H as (u & w2 & T & H); injection T as _ <-; apply IH in H as (W & r2 & E2 & FW & St & A2); cbn [script trace] in *;
    exists (busy ++ Lines ls :: W), r2; split; [rewrite E, E2, <- app_assoc; auto|];
    split; [apply Forall_app; split; [eapply busy_weak; eauto|constructor; auto; right; eauto 8]|]; split; auto;
    rewrite A2, asked_sleep, A, <- !app_assoc, <- map_app, <- !app_assoc; auto.
Qed.
Lemma creg_round w r rest : script w = r :: rest ->
  exists w1, script w1 = rest /\ asked (trace w1) = asked (trace w) ++ [ask (lit "AT+CREG?") r] /\
  match r with
  | Lines (l :: ls) => write_noparse (lit "AT+CREG?") w = Done (Ok (l :: ls)) w1
  | Lines [] => write_noparse (lit "AT+CREG?") w = Done (Err IndexError) w1
  | NoReply _ => exists d, write_noparse (lit "AT+CREG?") w = Done (Err (TimeoutException d)) w1
  end.
Proof.
  intro E. pose proof (write_noparse_any (lit "AT+CREG?") CR w) as N. rewrite E in N. destruct N as (x & W & N). eexists. split; [|split]; [| |].
  3:{ unfold write_noparse. rewrite W. destruct r as [[|l ls]|ls], x as [a|e]; try contradiction; subst; auto; try (destruct N as [d ->]; eauto). }
  - auto.
  - cbn [trace]. apply asked_settled.
Qed.
Lemma creg_none w : script w = [] -> exists w1, write_noparse (lit "AT+CREG?") w = Stuck w1.
Proof. intro E. pose proof (write_noparse_any (lit "AT+CREG?") CR w) as N. rewrite E in N. eauto. Qed.

Lemma loop_returns fuel : forall timer w ss w', coverage_loop fuel timer true w = Done (Ok ss) w' ->
  exists S r1 W r2, script w = S ++ r1 :: W ++ r2 :: script w' /\ Forall searching S /\ registered r1 /\ Forall weak W /\ strong r2 ss /\
    asked (trace w') = asked (trace w) ++ map (ask (lit "AT+CREG?")) (S ++ [r1]) ++ map (ask (lit "AT+CSQ")) (W ++ [r2]).
Proof.
  induction fuel as [|fuel IH]; intros timer w ss w' H; [discriminate|]. cbn [coverage_loop] in H.
  assert (H' : exists timer', (do ls <- write_noparse (lit "AT+CREG?");
        match line_matching CREG_REGEX ls with
        | Some m =>
            do status <- lift (py_int 10 (group 2 m));
            if (status =? 1) || (status =? 5) then tell (ESleep 10) ;;; coverage_loop fuel timer' false
            else if status =? 3 then raise InvalidStateException
            else if status =? 0 then raise InvalidStateException
            else tell (ESleep 10) ;;; coverage_loop fuel timer' true
        | None => tell (ESleep 10) ;;; coverage_loop fuel timer' false
        end) w = Done (Ok ss) w') by (destruct timer as [|[] timer]; [eauto|discriminate|eauto]).
  clear H. destruct H' as [timer' H]. destruct (script w) as [|r rest] eqn:Es; [destruct (creg_none w Es) as [w1 N]; unfold mbind in H; rewrite N in H; discriminate|].
  destruct (creg_round w r rest Es) as (w1 & E1 & A1 & R). destruct r as [[|l ls]|ls]; [unfold mbind in H; rewrite R in H; discriminate| |destruct R as [d R]; unfold mbind in H; rewrite R in H; discriminate].
  rewrite (bind_run _ _ _ _ _ R) in H.
  assert (Sig : forall t, (tell (ESleep 10) ;;; coverage_loop fuel t false) w1 = Done (Ok ss) w' -> registered (Lines (l :: ls)) ->
    exists S r1 W r2, Lines (l :: ls) :: rest = S ++ r1 :: W ++ r2 :: script w' /\ Forall searching S /\ registered r1 /\ Forall weak W /\ strong r2 ss /\
    asked (trace w') = asked (trace w) ++ map (ask (lit "AT+CREG?")) (S ++ [r1]) ++ map (ask (lit "AT+CSQ")) (W ++ [r2])).
  { intros t X Rg. apply bind_ok in X as (u & w2 & T & X). injection T as _ <-. apply loop_signal in X as (W & r2 & E & FW & St & A). cbn [script trace] in *.
    exists [], (Lines (l :: ls)), W, r2. cbn [app]. split; [rewrite <- E1, E; auto|]. repeat split; auto. rewrite A, asked_sleep, A1, <- app_assoc. auto. }
  destruct (creg_cases (l :: ls)) as [(m & st & M & P & Rg)|[M NR]]; rewrite M in H.
  - rewrite P in H. unfold mbind at 1, lift at 1 in H. destruct ((st =? 1) || (st =? 5)) eqn:B.
    + eapply Sig; eauto. exists (l :: ls). repeat split; [congruence|]. apply orb_true_iff in B as [B|B]; apply Z.eqb_eq in B; subst; auto.
    + apply orb_false_iff in B as [B1 B5]. destruct (st =? 3) eqn:B3; [discriminate|]. destruct (st =? 0) eqn:B0; [discriminate|].
      apply bind_ok in H as (u & w2 & T & H). injection T as _ <-. apply IH in H as (S & r1 & W & r2 & E & FS & Rr & FW & St & A). cbn [script trace] in *.
      exists (Lines (l :: ls) :: S), r1, W, r2. split; [cbn [app]; rewrite <- E, E1; auto|]. split; [constructor; auto; exists (l :: ls), st; repeat split; auto|].
      * apply Z.eqb_neq in B1, B5, B3, B0. cbn. intuition lia.
      * repeat split; auto. rewrite A, asked_sleep, A1, <- app_assoc. auto.
  - eapply Sig; eauto. exists (l :: ls). repeat split; auto. congruence.
Qed.
Lemma coverage_returns timer w ss w' : waitForNetworkCoverage timer w = Done (Ok ss) w' ->
  exists S r1 W r2, script w = S ++ r1 :: W ++ r2 :: script w' /\ Forall searching S /\ registered r1 /\ Forall weak W /\ strong r2 ss /\
    asked (trace w') = asked (trace w) ++ map (ask (lit "AT+CREG?")) (S ++ [r1]) ++ map (ask (lit "AT+CSQ")) (W ++ [r2]).
Proof. apply loop_returns. Qed.

(** the other direction, when the timer does not fire *)
Lemma weak_split W r ss : Forall weak W -> strong r ss -> exists busy codes ls s, all_busy busy codes /\ good_answer ls /\ signal ls s /\
  ((W = busy /\ r = Lines ls /\ s = ss /\ 0 < ss) \/ exists W', W = busy ++ Lines ls :: W' /\ Forall weak W' /\ s <= 0).
Proof.
  intros F (ls & -> & G & S & P). induction F as [|x W X F IH]; [exists [], [], ls, ss; repeat split; auto; constructor|].
  destruct X as [(c & X)|(ls' & s & -> & G' & S' & P')].
  - destruct IH as (busy & codes & l' & s & B & G' & S' & [(-> & E & -> & _)|(W' & -> & FW & Ps)]).
    + injection E as <-. exists (x :: busy), (c :: codes), ls, ss. split; [constructor; auto|]. auto 8.
    + exists (x :: busy), (c :: codes), l', s. split; [constructor; auto|]. repeat split; auto. right. exists W'. auto.
  - exists [], [], ls', s. split; [constructor|]. repeat split; auto. right. exists W. auto.
Qed.
Definition silent (timer : list bool) : Prop := Forall (fun b => b = false) timer.
Lemma silent_step {A} timer (X : A) (F : list bool -> A) : silent timer -> exists timer', silent timer' /\
  (let (fired, timer') := match timer with b :: t => (b, t) | [] => (false, []) end in if (fired : bool) then X else F timer') = F timer'.
Proof. intro S. destruct S as [|b t -> S]; [exists []; split; auto; constructor|exists t; auto]. Qed.
Lemma loop_strong fuel : forall timer w W r2 ss rest, silent timer -> (length (script w) < fuel)%nat -> script w = W ++ r2 :: rest -> Forall weak W -> strong r2 ss ->
  exists w', coverage_loop fuel timer false w = Done (Ok ss) w' /\ script w' = rest.
Proof.
  induction fuel as [|fuel IH]; intros timer w W r2 ss rest Si L E FW St; [lia|]. cbn [coverage_loop].
  destruct (silent_step timer (@raise Z (TimeoutException None)) (fun t => do s <- signalStrength; if 0 <? s then ret s else tell (ESleep 10) ;;; coverage_loop fuel t false) Si) as (t & St' & ->).
  destruct (weak_split W r2 ss FW St) as (busy & codes & ls & s & B & G & S & [(-> & -> & -> & P)|(W' & -> & FW' & P)]).
  - destruct (strength_good w busy codes ls ss rest E B G S) as (w1 & R & E1 & _). rewrite (bind_run _ _ _ _ _ R).
    apply Z.ltb_lt in P. rewrite P. exists w1. auto.
  - rewrite <- app_assoc in E. destruct (strength_good w busy codes ls s (W' ++ r2 :: rest) E B G S) as (w1 & R & E1 & _). rewrite (bind_run _ _ _ _ _ R).
    apply Z.ltb_ge in P. rewrite P. unfold mbind, tell. eapply IH; eauto. cbn [script]. rewrite E, app_length in L. cbn [length app] in L. rewrite E1. lia.
Qed.
Lemma loop_complete fuel : forall timer w S r1 W r2 ss rest, silent timer -> (length (script w) < fuel)%nat -> script w = S ++ r1 :: W ++ r2 :: rest ->
  Forall searching S -> registered r1 -> Forall weak W -> strong r2 ss -> exists w', coverage_loop fuel timer true w = Done (Ok ss) w' /\ script w' = rest.
Proof.
  induction fuel as [|fuel IH]; intros timer w S r1 W r2 ss rest Si L E FS Rg FW St; [lia|]. cbn [coverage_loop].
  destruct (silent_step timer (@raise Z (TimeoutException None)) (fun timer' => do ls <- write_noparse (lit "AT+CREG?");
        match line_matching CREG_REGEX ls with
        | Some m =>
            do status <- lift (py_int 10 (group 2 m));
            if (status =? 1) || (status =? 5) then tell (ESleep 10) ;;; coverage_loop fuel timer' false
            else if status =? 3 then raise InvalidStateException
            else if status =? 0 then raise InvalidStateException
            else tell (ESleep 10) ;;; coverage_loop fuel timer' true
        | None => tell (ESleep 10) ;;; coverage_loop fuel timer' false
        end) Si) as (t & St' & ->).
  destruct S as [|r S]; cbn [app] in E.
  - destruct (creg_round w _ _ E) as (w1 & E1 & A1 & R). destruct Rg as (ls & -> & N & Rg). destruct ls as [|l ls]; [congruence|]. rewrite (bind_run _ _ _ _ _ R).
    assert (K : exists w', (tell (ESleep 10) ;;; coverage_loop fuel t false) w1 = Done (Ok ss) w' /\ script w' = rest).
    { unfold mbind, tell. eapply loop_strong; eauto. cbn [script]. rewrite E in L. cbn in L. rewrite E1. lia. }
    destruct (creg_cases (l :: ls)) as [(m & st & M & P & Rg')|[M NR]]; rewrite M; auto. rewrite P. unfold mbind at 1, lift at 1.
    assert (B : (st =? 1) || (st =? 5) = true).
    { destruct Rg as [Rg|[Rg|Rg]]; [rewrite (registration_unique _ _ _ Rg' Rg); auto|rewrite (registration_unique _ _ _ Rg' Rg); auto|exfalso; eapply registration_none; eauto]. }
    rewrite B. auto.
  - destruct (creg_round w _ _ E) as (w1 & E1 & A1 & R). inversion FS as [|? ? (ls & st & -> & Rg' & Nin) FS']; subst. destruct ls as [|l ls]; [destruct Rg' as (b & ? & ? & X & _); destruct b; discriminate|].
    rewrite (bind_run _ _ _ _ _ R). destruct (creg_cases (l :: ls)) as [(m & st' & M & P & Rg'')|[M NR]]; [|exfalso; eapply registration_none; eauto].
    rewrite (registration_unique _ _ _ Rg'' Rg') in P. rewrite M, P. unfold mbind at 1, lift at 1. cbn in Nin.
    destruct (Z.eqb_spec st 1); [exfalso; subst; auto 8|]. destruct (Z.eqb_spec st 5); [exfalso; subst; auto 8|]. cbn [orb].
    destruct (Z.eqb_spec st 3); [exfalso; subst; auto 8|]. destruct (Z.eqb_spec st 0); [exfalso; subst; auto 8|].
    unfold mbind, tell. eapply IH; eauto. cbn [script]. rewrite E in L. cbn in L. rewrite E1. lia.
Qed.
Lemma coverage_complete timer w S r1 W r2 ss rest : silent timer -> script w = S ++ r1 :: W ++ r2 :: rest ->
  Forall searching S -> registered r1 -> Forall weak W -> strong r2 ss -> exists w', waitForNetworkCoverage timer w = Done (Ok ss) w' /\ script w' = rest.
Proof. intros. eapply loop_complete; eauto. Qed.

(** ** When it raises *)
Lemma strength_err w e w' : signalStrength w = Done (Err e) w' -> e <> InvalidStateException /\
  ((exists d, e = TimeoutException d) -> exists ls, In (NoReply ls) (script w)).
Proof.
  unfold signalStrength. intro H. apply bind_done in H as [(ls & w1 & W & H)|(e' & W & [= ->])].
  - pose proof (signal_run ls w1) as S. rewrite H in S. destruct S as (_ & [->| ->] & _); (split; [discriminate|intros [d X]; discriminate]).
  - apply write_done in W as (busy & codes & r & E & _ & _ & O & _). split.
    + inversion O; subst; try discriminate. match goal with H : exception_for _ _ _ _ |- _ => destruct H; discriminate end.
    + intros [d ->]. rewrite E. destruct r as [ls|ls]; [|exists ls; apply in_app_iff; right; left; auto].
      exfalso. inversion O; subst. match goal with H : exception_for _ _ _ _ |- _ => inversion H end.
Qed.
Lemma loop_signal_err fuel : forall timer w e w', (length (script w) < fuel)%nat -> coverage_loop fuel timer false w = Done (Err e) w' -> e <> InvalidStateException /\
  ((exists d, e = TimeoutException d) -> In true timer \/ exists ls, In (NoReply ls) (script w)).
Proof.
  induction fuel as [|fuel IH]; intros timer w e w' L H; [lia|]. cbn [coverage_loop] in H.
  assert (C : (In true timer /\ e = TimeoutException None) \/ exists t, (In true t -> In true timer) /\
     (do ss <- signalStrength; if 0 <? ss then ret ss else tell (ESleep 10) ;;; coverage_loop fuel t false) w = Done (Err e) w').
  { destruct timer as [|[] timer]; [right; exists []; auto|left; injection H as <- _; split; [left|]; auto|right; exists timer; split; auto; intro; right; auto]. }
  destruct C as [[T ->]|(t & Tt & C)]; [split; [discriminate|auto]|]. clear H.
  apply bind_done in C as [(s & w1 & S & H)|(e' & S & [= ->])].
  - apply strength_ok in S as (busy & codes & ls & E & B & G & Sg & A). destruct (0 <? s); [discriminate|].
    unfold mbind, tell in H. apply IH in H; [|cbn [script]; rewrite E, app_length in L; cbn [length] in L; lia]. destruct H as [H1 H2]. split; auto.
    intro X. apply H2 in X as [X|[ls' X]]; auto. right. exists ls'. cbn [script] in X. rewrite E. apply in_app_iff. right. right. auto.
  - apply strength_err in S as [S1 S2]. split; auto.
Qed.
Lemma loop_err fuel : forall timer w e w', (length (script w) < fuel)%nat -> coverage_loop fuel timer true w = Done (Err e) w' ->
  (e = InvalidStateException -> exists S r, script w = S ++ r :: script w' /\ Forall searching S /\ refused r) /\
  ((exists d, e = TimeoutException d) -> In true timer \/ exists ls, In (NoReply ls) (script w)).
Proof.
  induction fuel as [|fuel IH]; intros timer w e w' L H; [lia|]. cbn [coverage_loop] in H.
  assert (C : (In true timer /\ e = TimeoutException None) \/ exists t, (In true t -> In true timer) /\
     (do ls <- write_noparse (lit "AT+CREG?");
        match line_matching CREG_REGEX ls with
        | Some m =>
            do status <- lift (py_int 10 (group 2 m));
            if (status =? 1) || (status =? 5) then tell (ESleep 10) ;;; coverage_loop fuel t false
            else if status =? 3 then raise InvalidStateException
            else if status =? 0 then raise InvalidStateException
            else tell (ESleep 10) ;;; coverage_loop fuel t true
        | None => tell (ESleep 10) ;;; coverage_loop fuel t false
        end) w = Done (Err e) w').
  { destruct timer as [|[] timer]; [right; exists []; auto|left; injection H as <- _; split; [left|]; auto|right; exists timer; split; auto; intro; right; auto]. }
  destruct C as [[T ->]|(t & Tt & C)]; [split; [discriminate|auto]|]. clear H. rename C into H.
  destruct (script w) as [|r rest] eqn:Es; [destruct (creg_none w Es) as [w1 N]; unfold mbind in H; rewrite N in H; discriminate|].
  destruct (creg_round w r rest Es) as (w1 & E1 & A1 & R).
  destruct r as [[|l ls]|ls]; [unfold mbind in H; rewrite R in H; injection H as <- _; split; [discriminate|intros [d X]; discriminate]| |
    destruct R as [d R]; unfold mbind in H; rewrite R in H; injection H as <- _; split; [discriminate|intros _; right; exists ls; left; auto]].
  rewrite (bind_run _ _ _ _ _ R) in H. cbn [length] in L.
  assert (Sig : (tell (ESleep 10) ;;; coverage_loop fuel t false) w1 = Done (Err e) w' ->
    (e = InvalidStateException -> exists S r, Lines (l :: ls) :: rest = S ++ r :: script w' /\ Forall searching S /\ refused r) /\
    ((exists d, e = TimeoutException d) -> In true timer \/ exists l0, In (NoReply l0) (Lines (l :: ls) :: rest))).
  { intro X. unfold mbind, tell in X. apply loop_signal_err in X as [X1 X2]; [|cbn [script]; rewrite E1; lia]. split; [congruence|].
    intro Y. apply X2 in Y as [Y|[l0 Y]]; auto. right. exists l0. right. cbn [script] in Y. rewrite E1 in Y. auto. }
  destruct (creg_cases (l :: ls)) as [(m & st & M & P & Rg)|[M NR]]; rewrite M in H; auto.
  rewrite P in H. unfold mbind at 1, lift at 1 in H. destruct ((st =? 1) || (st =? 5)) eqn:B; auto.
  apply orb_false_iff in B as [B1 B5]. destruct (st =? 3) eqn:B3.
  { injection H as <- <-. split; [|intros [d X]; discriminate]. intros _. exists [], (Lines (l :: ls)). cbn [app]. rewrite E1. repeat split; auto.
    exists (l :: ls). split; auto. right. apply Z.eqb_eq in B3. subst. auto. }
  destruct (st =? 0) eqn:B0.
  { injection H as <- <-. split; [|intros [d X]; discriminate]. intros _. exists [], (Lines (l :: ls)). cbn [app]. rewrite E1. repeat split; auto.
    exists (l :: ls). split; auto. left. apply Z.eqb_eq in B0. subst. auto. }
  unfold mbind, tell in H. apply IH in H as [H1 H2]; [|cbn [script]; rewrite E1; lia]. cbn [script] in *. rewrite E1 in *. split.
  - intro X. destruct (H1 X) as (S & r & E & F & Rf). exists (Lines (l :: ls) :: S), r. cbn [app]. rewrite E. repeat split; auto. constructor; auto.
    exists (l :: ls), st. repeat split; auto. apply Z.eqb_neq in B1, B5, B3, B0. cbn. intuition lia.
  - intro X. apply H2 in X as [X|[l0 X]]; auto. right. exists l0. right. auto.
Qed.
Lemma coverage_denied timer w w' : waitForNetworkCoverage timer w = Done (Err InvalidStateException) w' ->
  exists S r, script w = S ++ r :: script w' /\ Forall searching S /\ refused r.
Proof. intro H. apply loop_err in H as [H _]; auto. Qed.
Lemma coverage_timeout timer w d w' : waitForNetworkCoverage timer w = Done (Err (TimeoutException d)) w' ->
  In true timer \/ exists ls, In (NoReply ls) (script w).
Proof. intro H. apply loop_err in H as [_ H]; eauto. Qed.
Lemma loop_denied fuel : forall timer w S r rest, silent timer -> (length (script w) < fuel)%nat -> script w = S ++ r :: rest -> Forall searching S -> refused r ->
  exists w', coverage_loop fuel timer true w = Done (Err InvalidStateException) w'.
Proof.
  induction fuel as [|fuel IH]; intros timer w S r rest Si L E FS Rf; [lia|]. cbn [coverage_loop].
  destruct (silent_step timer (@raise Z (TimeoutException None)) (fun timer' => do ls <- write_noparse (lit "AT+CREG?");
        match line_matching CREG_REGEX ls with
        | Some m =>
            do status <- lift (py_int 10 (group 2 m));
            if (status =? 1) || (status =? 5) then tell (ESleep 10) ;;; coverage_loop fuel timer' false
            else if status =? 3 then raise InvalidStateException
            else if status =? 0 then raise InvalidStateException
            else tell (ESleep 10) ;;; coverage_loop fuel timer' true
        | None => tell (ESleep 10) ;;; coverage_loop fuel timer' false
        end) Si) as (t & St' & ->).
  destruct S as [|r0 S]; cbn [app] in E.
  - destruct (creg_round w _ _ E) as (w1 & E1 & A1 & R). destruct Rf as (ls & -> & Rf).
    destruct ls as [|l ls]; [exfalso; destruct Rf as [(b & ? & ? & X & _)|(b & ? & ? & X & _)]; destruct b; discriminate|]. rewrite (bind_run _ _ _ _ _ R).
    destruct (creg_cases (l :: ls)) as [(m & st & M & P & Rg')|[M NR]]; [|exfalso; destruct Rf; eapply registration_none; eauto].
    rewrite M, P. unfold mbind, lift, raise. destruct Rf as [Rf|Rf]; rewrite (registration_unique _ _ _ Rg' Rf); cbn; eauto.
  - destruct (creg_round w _ _ E) as (w1 & E1 & A1 & R). inversion FS as [|? ? (ls & st & -> & Rg' & Nin) FS']; subst. destruct ls as [|l ls]; [destruct Rg' as (b & ? & ? & X & _); destruct b; discriminate|].
    rewrite (bind_run _ _ _ _ _ R). destruct (creg_cases (l :: ls)) as [(m & st' & M & P & Rg'')|[M NR]]; [|exfalso; eapply registration_none; eauto].
    rewrite (registration_unique _ _ _ Rg'' Rg') in P. rewrite M, P. unfold mbind at 1, lift at 1. cbn in Nin.
    destruct (Z.eqb_spec st 1); [exfalso; subst; auto 8|]. destruct (Z.eqb_spec st 5); [exfalso; subst; auto 8|]. cbn [orb].
    destruct (Z.eqb_spec st 3); [exfalso; subst; auto 8|]. destruct (Z.eqb_spec st 0); [exfalso; subst; auto 8|].
    unfold mbind, tell. eapply IH; eauto. cbn [script]. rewrite E in L. cbn in L. rewrite E1. lia.
Qed.
Lemma coverage_refused timer w S r rest : silent timer -> script w = S ++ r :: rest -> Forall searching S -> refused r ->
  exists w', waitForNetworkCoverage timer w = Done (Err InvalidStateException) w'.
Proof. intros. eapply loop_denied; eauto. Qed.
Lemma strength_exact w ss : (exists w', signalStrength w = Done (Ok ss) w') <->
  exists busy codes ls rest, script w = busy ++ Lines ls :: rest /\ all_busy busy codes /\ good_answer ls /\ signal ls ss.
Proof.
  split.
  - intros [w' H]. apply strength_ok in H as (busy & codes & ls & E & B & G & S & _). exists busy, codes, ls, (script w'). auto.
  - intros (busy & codes & ls & rest & E & B & G & S). destruct (strength_good w busy codes ls ss rest E B G S) as (w' & H & _). eauto.
Qed.
