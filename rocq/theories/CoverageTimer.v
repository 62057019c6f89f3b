(** waitForNetworkCoverage and its timer: which commands are sent before it fires. *)
From Verif Require Import Base ModemCore ModemSpec WriteProofs MonadProofs SendSpec CoverageSpec CoverageProofs.

Lemma search_step w r rest : script w = r :: rest -> searching r -> exists w1, script w1 = rest /\
  forall fuel timer, coverage_loop (S fuel) (false :: timer) true w = coverage_loop fuel timer true w1.
Proof.
  intros E (ls & st & -> & Rg' & Nin). destruct (creg_round w _ _ E) as (w1 & E1 & A1 & R). destruct ls as [|l ls]; [destruct Rg' as (b & ? & ? & X & _); destruct b; discriminate|].
  eexists. split; [|intros fuel timer; cbn [coverage_loop]; rewrite (bind_run _ _ _ _ _ R); destruct (creg_cases (l :: ls)) as [(m & st' & M & P & Rg'')|[M NR]]; [|exfalso; eapply registration_none; eauto];
    rewrite (registration_unique _ _ _ Rg'' Rg') in P; rewrite M, P; unfold mbind at 1, lift at 1; cbn in Nin;
    destruct (Z.eqb_spec st 1); [exfalso; subst; auto 8|]; destruct (Z.eqb_spec st 5); [exfalso; subst; auto 8|]; cbn [orb];
    destruct (Z.eqb_spec st 3); [exfalso; subst; auto 8|]; destruct (Z.eqb_spec st 0); [exfalso; subst; auto 8|]; reflexivity].
  exact E1.
Qed.
Lemma registered_step w r rest : script w = r :: rest -> registered r -> exists w1, script w1 = rest /\
  forall fuel timer, coverage_loop (S fuel) (false :: timer) true w = coverage_loop fuel timer false w1.
Proof.
  intros E (ls & -> & N & Rg). destruct (creg_round w _ _ E) as (w1 & E1 & A1 & R). destruct ls as [|l ls]; [congruence|].
  eexists. split; [|intros fuel timer; cbn [coverage_loop]; rewrite (bind_run _ _ _ _ _ R); destruct (creg_cases (l :: ls)) as [(m & st & M & P & Rg')|[M NR]]; rewrite M; [|reflexivity];
    rewrite P; unfold mbind at 1, lift at 1;
    assert (B : (st =? 1) || (st =? 5) = true) by
     (destruct Rg as [Rg|[Rg|Rg]]; [rewrite (registration_unique _ _ _ Rg' Rg); auto|rewrite (registration_unique _ _ _ Rg' Rg); auto|exfalso; eapply registration_none; eauto]);
    rewrite B; reflexivity].
  exact E1.
Qed.
Lemma round_step w c rest : script w = c ++ rest -> weak_round c -> exists w1, script w1 = rest /\
  forall fuel timer, coverage_loop (S fuel) (false :: timer) false w = coverage_loop fuel timer false w1.
Proof.
  intros E (busy & codes & ls & ss & -> & B & G & Sg & P). rewrite <- app_assoc in E. destruct (strength_good w busy codes ls ss rest E B G Sg) as (w1 & R & E1 & _).
  eexists. split; [|intros fuel timer; cbn [coverage_loop]; rewrite (bind_run _ _ _ _ _ R); rewrite (proj2 (Z.ltb_ge 0 ss) P); reflexivity].
  exact E1.
Qed.
Lemma searches fuel S : forall w rest timer, Forall searching S -> script w = S ++ rest -> exists w1, script w1 = rest /\
  coverage_loop (length S + fuel) (repeat false (length S) ++ timer) true w = coverage_loop fuel timer true w1.
Proof.
  induction S as [|r S IH]; intros w rest timer F E; [exists w; auto|]. inversion F as [|? ? Fr FS]; subst. cbn [List.app] in E.
  destruct (search_step _ _ _ E Fr) as (w1 & E1 & St). destruct (IH w1 rest timer FS E1) as (w2 & E2 & K). exists w2. split; auto. cbn [length Nat.add repeat List.app]. rewrite St. exact K.
Qed.
Lemma rounds fuel cs : forall w rest timer, Forall weak_round cs -> script w = List.concat cs ++ rest -> exists w1, script w1 = rest /\
  coverage_loop (length cs + fuel) (repeat false (length cs) ++ timer) false w = coverage_loop fuel timer false w1.
Proof.
  induction cs as [|c cs IH]; intros w rest timer F E; [exists w; auto|]. inversion F as [|? ? Fr FS]; subst. cbn [List.concat] in E. rewrite <- app_assoc in E.
  destruct (round_step _ _ _ E Fr) as (w1 & E1 & St). destruct (IH w1 rest timer FS E1) as (w2 & E2 & K). exists w2. split; auto. cbn [length Nat.add repeat List.app]. rewrite St. exact K.
Qed.
Lemma round_nonempty cs : Forall weak_round cs -> (length cs <= length (List.concat cs))%nat.
Proof.
  induction 1 as [|c cs (busy & codes & ls & ss & -> & _) F IH]; auto. cbn [length List.concat]. rewrite !app_length. cbn. lia.
Qed.
Lemma fired_searching w S rest more : script w = S ++ rest -> Forall searching S -> exists w',
  waitForNetworkCoverage (repeat false (length S) ++ true :: more) w = Done (Err (TimeoutException None)) w' /\ script w' = rest.
Proof.
  intros E F. unfold waitForNetworkCoverage. destruct (searches (Datatypes.S (length rest)) S w rest (true :: more) F E) as (w1 & E1 & K).
  exists w1. split; auto. rewrite E, app_length. replace (Datatypes.S (length S + length rest)) with (length S + Datatypes.S (length rest))%nat by lia. rewrite K. reflexivity.
Qed.
Lemma later w S r1 cs rest timer : script w = S ++ r1 :: List.concat cs ++ rest -> Forall searching S -> registered r1 -> Forall weak_round cs ->
  exists fuel w', (length rest <= fuel)%nat /\ script w' = rest /\ waitForNetworkCoverage (repeat false (length S + 1 + length cs) ++ timer) w = coverage_loop (Datatypes.S fuel) timer false w'.
Proof.
  intros E FS Rg F. unfold waitForNetworkCoverage. pose proof (round_nonempty cs F) as L.
  exists (length (List.concat cs) - length cs + length rest)%nat.
  destruct (searches (Datatypes.S (length cs + Datatypes.S (length (List.concat cs) - length cs + length rest))) S w _ (false :: repeat false (length cs) ++ timer) FS E) as (w1 & E1 & K1).
  destruct (registered_step _ _ _ E1 Rg) as (w2 & E2 & K2).
  destruct (rounds (Datatypes.S (length (List.concat cs) - length cs + length rest)) cs w2 rest timer F E2) as (w3 & E3 & K3). exists w3. split; [lia|]. split; auto.
  rewrite <- K3, <- K2, <- K1. f_equal.
  - rewrite E, app_length. cbn [length]. rewrite app_length. lia.
  - rewrite <- Nat.add_assoc, repeat_app, <- app_assoc. reflexivity.
Qed.
Lemma fired_registered w S r1 cs rest more : script w = S ++ r1 :: List.concat cs ++ rest -> Forall searching S -> registered r1 -> Forall weak_round cs -> exists w',
  waitForNetworkCoverage (repeat false (length S + 1 + length cs) ++ true :: more) w = Done (Err (TimeoutException None)) w' /\ script w' = rest.
Proof.
  intros E FS Rg F. destruct (later w S r1 cs rest (true :: more) E FS Rg F) as (fuel & w' & _ & E' & K). exists w'. split; auto.
Qed.
Lemma found_in_time w S r1 cs busy codes ls ss rest more : script w = S ++ r1 :: List.concat cs ++ busy ++ Lines ls :: rest -> Forall searching S -> registered r1 -> Forall weak_round cs ->
  all_busy busy codes -> strong (Lines ls) ss -> exists w',
  waitForNetworkCoverage (repeat false (length S + 1 + length cs) ++ false :: more) w = Done (Ok ss) w' /\ script w' = rest.
Proof.
  intros E FS Rg F B (ls' & El & G & Sg & P). injection El as <-. destruct (later w S r1 cs _ (false :: more) E FS Rg F) as (fuel & w1 & _ & E1 & K).
  destruct (strength_good w1 busy codes ls ss rest E1 B G Sg) as (w' & R & E' & _). exists w'. split; auto. rewrite K. cbn [coverage_loop]. rewrite (bind_run _ _ _ _ _ R).
  rewrite (proj2 (Z.ltb_lt 0 ss) P). reflexivity.
Qed.
