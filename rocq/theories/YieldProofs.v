From Verif Require Import Base SerialModel LifeModel LifeSpec YieldSpec.

Definition pc_ok (s : sstate) (p : wpc) : Prop :=
  match p with
  | WSend _ | WLoad | WWait _ | WClrEvt _ => evt s <> None /\ resp s <> None
  | WSetEvt _ | WClrExp _ | WRet _ => resp s <> None
  | WFail => False
  | _ => True
  end.
Definition yinv (s : sstate) : Prop := (forall i, lock s = Some i <-> writer s i <> WIdle) /\ forall i, pc_ok s (writer s i).
Lemma yinv_init : yinv s_init.
Proof. split; intro i; cbn; [split; congruence|exact I]. Qed.
Lemma yinv_other s i j : yinv s -> writer s i <> WIdle -> j <> i -> writer s j = WIdle.
Proof.
  intros [L _] W N. apply L in W. destruct (writer s j) eqn:E; try reflexivity; exfalso; apply N; assert (lock s = Some j) by (apply L; congruence); congruence.
Qed.
Lemma yinv_free s i : yinv s -> lock s = None -> writer s i = WIdle.
Proof. intros [L _] N. destruct (writer s i) eqn:E; try reflexivity; exfalso; assert (lock s = Some i) by (apply L; congruence); congruence. Qed.
(** a step of the owner keeps the other threads idle *)
Lemma yinv_step s s' i p : yinv s -> (writer s i <> WIdle \/ lock s = None) -> writer s' = upd (writer s) i p ->
  match p with WIdle => lock s' = None | _ => lock s' = Some i end -> pc_ok s' p -> yinv s'.
Proof.
  intros Y O W L P. assert (Ot : forall j, j <> i -> writer s j = WIdle).
  { intros j N. destruct O as [O|O]; [eapply yinv_other; eauto|eapply yinv_free; eauto]. }
  split; intro j; rewrite W; unfold upd; destruct (Nat.eqb_spec j i) as [->|N].
  - destruct p; rewrite L; split; intros; congruence.
  - rewrite Ot by auto. destruct p; rewrite L; split; intros; congruence.
  - exact P.
  - rewrite Ot by auto. exact I.
Qed.
Lemma yinv_same s s' : yinv s -> lock s' = lock s -> writer s' = writer s -> evt s' = evt s -> resp s' = resp s -> yinv s'.
Proof.
  intros [L P] E1 E2 E3 E4. split; intro i; rewrite E2; [rewrite E1; apply L|]. specialize (P i). unfold pc_ok in *. rewrite E3, E4. exact P.
Qed.
Lemma yinv_read s i s' l : yinv s -> read_step s i = Some (s', l) -> yinv s'.
Proof.
  intros Y E. unfold read_step in E.
  repeat match type of E with context [match ?x with _ => _ end] => destruct x eqn:?; try discriminate E end; injection E as <- <-; try exact Y; eapply yinv_same; eauto.
Qed.
Lemma yinv_write s i w s' l : yinv s -> write_step s i w = Some (s', l) -> yinv s'.
Proof.
  intros Y E. pose proof (proj2 Y i) as P. pose proof (proj1 (proj1 Y i)) as L1. pose proof (proj2 (proj1 Y i)) as L2. unfold write_step in E.
  destruct (writer s i) eqn:W; cbn [pc_ok] in P; try (exfalso; exact P);
    repeat match type of E with context [match ?x with _ => _ end] => destruct x eqn:?; try discriminate E end; injection E as <- <-;
    (eapply (yinv_step _ _ i); [exact Y| |reflexivity| |]); cbn; try (left; rewrite W; discriminate); try (right; assumption);
    try reflexivity; try (apply L2; discriminate); try exact I; try (intuition congruence).
Qed.
Lemma yinv_fail s i : yinv s -> writer s i <> WIdle -> yinv (set_writer s i WRel).
Proof. intros Y N. eapply (yinv_step _ _ i); [exact Y|left; exact N|reflexivity|cbn; apply Y; exact N|exact I]. Qed.
Lemma loop_base s i err s' l : loop_step s i err = Some (s', l) -> base s' = base s \/ exists l0, read_step (base s) i = Some (base s', l0).
Proof.
  unfold loop_step. destruct (loop s); intro E; try (injection E as <- <-; auto; fail); try discriminate E.
  - destruct (up s); injection E as <- <-; auto.
  - destruct (_ && _); [injection E as <- <-; auto|]. destruct (read_step (base s) i) as [[b l0]|]; [|discriminate E]. injection E as <- <-. right. eauto.
Qed.
Lemma yinv_act s a s' l : yinv (base s) -> lact s a = Some (s', l) -> yinv (base s').
Proof.
  intros Y E. destruct a as [i err|i w err| |]; cbn [lact] in E.
  - apply loop_base in E. destruct E as [->|(l0 & R)]; [exact Y|eapply yinv_read; eauto].
  - unfold life_write in E. destruct (write_step (base s) i w) as [[b l0]|] eqn:R; [apply yinv_write in R; auto|]; destruct (writer (base s) i) eqn:W; try discriminate E;
      try (injection E as <- <-; exact R); destruct (err || negb (is_open s)); try discriminate E; injection E as <- <-; try exact R; apply yinv_fail; auto; rewrite W; discriminate.
  - unfold close_step in E. destruct (owner s); [|destruct (loop s); try discriminate E|]; injection E as <- <-; exact Y.
  - unfold connect_step in E. destruct (owner s); try discriminate E. destruct (loop s); try discriminate E. injection E as <- <-. eapply yinv_same; eauto.
Qed.
Lemma yinv_run s tr s' : yinv (base s) -> lrun s tr s' -> yinv (base s').
Proof. intros Y R. induction R; [exact Y|]. eapply yinv_act; [apply IHR; exact Y|eassumption]. Qed.
Lemma yinv_reached tr s : lrun l_init tr s -> yinv (base s).
Proof. apply yinv_run. apply yinv_init. Qed.

Theorem owner_calls tr s i : lrun l_init tr s -> (lock (base s) = Some i <-> writer (base s) i <> WIdle).
Proof. intro R. apply (proj1 (yinv_reached _ _ R)). Qed.
Theorem owner_moves tr s i w err : lrun l_init tr s -> lock (base s) = Some i \/ lock (base s) = None ->
  (exists s' l, lact s (DWrite i w err) = Some (s', l)) \/ (waits s i /\ in_timeout w = false).
Proof.
  intros R O. pose proof (yinv_reached _ _ R) as Y. pose proof (proj2 Y i) as P. pose proof (yinv_free (base s) i Y) as F. pose proof (proj1 (proj1 Y i)) as L. cbn [lact]. unfold life_write, write_step, waits.
  destruct (writer (base s) i) eqn:W; cbn [pc_ok] in P; try (exfalso; exact P); try (destruct O as [O|O]; [|specialize (F O); discriminate F]).
  all: try (left; destruct (err || negb (is_open s)); eauto; fail).
  - destruct O as [O|O]; [exfalso; apply L in O; congruence|]. rewrite O. eauto.
  - left. destruct (w_wait op); [destruct (w_expected op) as [[|c e]|]|]; eauto.
  - destruct P as [P _]. destruct (evt (base s)); [eauto|congruence].
  - destruct (is_set (base s) e) eqn:S; [eauto|]. destruct (in_timeout w); [eauto|]. right. split; eauto.
  - destruct (resp (base s)); [eauto|congruence].
Qed.

Definition left (p : wpc) : nat :=
  match p with
  | WIdle => 0 | WCheck _ => 10 | WSetResp _ => 9 | WSetEvt _ => 8 | WSend _ => 7 | WLoad => 6 | WWait _ => 5 | WClrEvt _ => 4 | WClrExp _ => 3 | WRet _ => 2
  | WSendNW _ => 2 | WRel => 1 | WFail => 0
  end.
Lemma read_writer s i s' l : read_step s i = Some (s', l) -> writer s' = writer s /\ lock s' = lock s.
Proof.
  intro E. unfold read_step in E. repeat match type of E with context [match ?x with _ => _ end] => destruct x eqn:?; try discriminate E end; injection E as <- <-; auto.
Qed.
Lemma other_acts s a s' l j : lact s a = Some (s', l) -> (forall w err, a <> DWrite j w err) -> writer (base s') j = writer (base s) j.
Proof.
  intros E N. destruct a as [i err|i w err| |]; cbn [lact] in E.
  - apply loop_base in E. destruct E as [->|(l0 & R)]; [reflexivity|]. apply read_writer in R. destruct R as [-> _]. reflexivity.
  - assert (D : j <> i) by (intros ->; apply (N w err); reflexivity). unfold life_write in E. destruct (write_step (base s) i w) as [[b l0]|] eqn:R.
    + assert (Q : writer b j = writer (base s) j).
      { unfold write_step in R. destruct (writer (base s) i) eqn:W;
          repeat match type of R with context [match ?x with _ => _ end] => destruct x eqn:?; try discriminate R end; try discriminate R; injection R as <- <-; cbn; unfold upd; destruct (Nat.eqb_spec j i); congruence. }
      destruct (writer (base s) i) eqn:W; try (injection E as <- <-; exact Q); destruct (err || negb (is_open s)); injection E as <- <-; try exact Q;
        cbn; unfold upd; destruct (Nat.eqb_spec j i); congruence.
    + destruct (writer (base s) i) eqn:W; try discriminate E; destruct (err || negb (is_open s)); try discriminate E; injection E as <- <-; cbn; unfold upd; destruct (Nat.eqb_spec j i); congruence.
  - unfold close_step in E. destruct (owner s); [|destruct (loop s); try discriminate E|]; injection E as <- <-; reflexivity.
  - unfold connect_step in E. destruct (owner s); try discriminate E. destruct (loop s); try discriminate E. injection E as <- <-. reflexivity.
Qed.
Lemma own_acts s i w err s' l : yinv (base s) -> lock (base s) = Some i -> lact s (DWrite i w err) = Some (s', l) ->
  (left (writer (base s') i) < left (writer (base s) i))%nat /\ (lock (base s') = Some i \/ lock (base s') = None).
Proof.
  intros Y L E. pose proof (yinv_act _ _ _ _ Y E) as Y'. pose proof (proj2 Y' i) as P'. cbn [lact] in E.
  assert (NI : writer (base s) i <> WIdle) by (apply Y; exact L). unfold life_write in E. destruct (write_step (base s) i w) as [[b l0]|] eqn:R.
  - assert (Q : writer b i <> WFail -> (left (writer b i) < left (writer (base s) i))%nat /\ (lock b = Some i \/ lock b = None)).
    { intro NF. unfold write_step in R. destruct (writer (base s) i) eqn:W; [congruence|..];
        repeat match type of R with context [match ?x with _ => _ end] => destruct x eqn:?; try discriminate R end; try discriminate R; injection R as <- <-; cbn in *; unfold upd in *; rewrite Nat.eqb_refl in *; cbn; split; auto; try lia; congruence. }
    destruct (writer (base s) i) eqn:W; [congruence|..]; try (injection E as <- <-; apply Q; cbn [base] in P'; intro F; rewrite F in P'; exact P').
    all: destruct (err || negb (is_open s)); injection E as <- <-; try (apply Q; cbn [base] in P'; intro F; rewrite F in P'; exact P'); cbn; unfold upd; rewrite Nat.eqb_refl; cbn; split; auto; lia.
  - destruct (writer (base s) i) eqn:W; try discriminate E; destruct (err || negb (is_open s)); try discriminate E; injection E as <- <-; cbn; unfold upd; rewrite Nat.eqb_refl; cbn; split; auto; lia.
Qed.
Lemma left_bound p : (left p <= 10)%nat. Proof. destruct p; cbn; lia. Qed.
Lemma lrun_trans s a s1 b s2 : lrun s a s1 -> lrun s1 b s2 -> lrun s (a ++ b) s2.
Proof. intros A B. induction B; [rewrite app_nil_r; auto|]. rewrite app_assoc. econstructor; eauto. Qed.
(** a run of the owner: it keeps the port with ever fewer steps left, or gives it back *)
Lemma holding s tr s' i : yinv (base s) -> lock (base s) = Some i -> lrun s tr s' ->
  (lock (base s') = Some i /\ (length (filter (moves i) tr) + left (writer (base s') i) <= left (writer (base s) i))%nat) \/
  exists tr1 s1 tr2, tr = tr1 ++ tr2 /\ lrun s tr1 s1 /\ lrun s1 tr2 s' /\ lock (base s1) = None.
Proof.
  intros Y L R. induction R as [s|s tr s' a l s'' R IH E]; [left; split; [exact L|cbn; lia]|].
  destruct (IH Y L) as [[L' B]|(tr1 & s1 & tr2 & -> & R1 & R2 & N)].
  2:{ right. exists tr1, s1, (tr2 ++ [(a, l)]). split; [rewrite app_assoc; reflexivity|]. split; [exact R1|]. split; [econstructor; eauto|exact N]. }
  pose proof (yinv_run _ _ _ Y R) as Y'. pose proof (yinv_act _ _ _ _ Y' E) as Y2.
  assert (C : (exists w err, a = DWrite i w err) \/ (forall w err, a <> DWrite i w err)).
  { destruct a as [?|j ? ?| |]; try (right; discriminate). destruct (Nat.eq_dec j i) as [->|N]; [left; eauto|right; congruence]. }
  rewrite filter_app, app_length. cbn [filter]. destruct C as [(w & err & ->)|N].
  - destruct (own_acts _ _ _ _ _ _ Y' L' E) as [D [L2|L2]].
    + left. split; [exact L2|]. unfold moves at 2. cbn [fst]. rewrite Nat.eqb_refl. cbn [length]. lia.
    + right. exists (tr ++ [(DWrite i w err, l)]), s'', []. rewrite app_nil_r. split; [reflexivity|]. split; [econstructor; eauto|]. split; [constructor|exact L2].
  - left. rewrite (other_acts _ _ _ _ _ E N). split.
    + apply (proj1 Y2 i). rewrite (other_acts _ _ _ _ _ E N). apply Y'. exact L'.
    + assert (M : moves i (a, l) = false) by (unfold moves; cbn [fst]; destruct a as [?|j ? ?| |]; auto; destruct (Nat.eqb_spec j i); [subst; exfalso; eapply N; reflexivity|reflexivity]).
      rewrite M. cbn [length]. lia.
Qed.
Theorem owner_yields tr0 s tr s' i : lrun l_init tr0 s -> lock (base s) = Some i -> lrun s tr s' -> (10 <= length (filter (moves i) tr))%nat ->
  exists tr1 s1 tr2, tr = tr1 ++ tr2 /\ lrun s tr1 s1 /\ lrun s1 tr2 s' /\ lock (base s1) = None.
Proof.
  intros R0 L R B. pose proof (yinv_reached _ _ R0) as Y. destruct (holding _ _ _ _ Y L R) as [[L' C]|H]; [exfalso|exact H].
  assert (Z : writer (base s') i <> WIdle) by (apply (yinv_run _ _ _ Y R); exact L'). pose proof (proj2 (yinv_run _ _ _ Y R) i) as P. pose proof (left_bound (writer (base s) i)).
  destruct (writer (base s') i); cbn in *; try lia; congruence.
Qed.

(** one outcome for each call *)
Lemma count_snoc f ls l : count f (ls ++ [l]) = (count f ls + if f l then 1 else 0)%nat.
Proof. unfold count. rewrite filter_app, app_length. cbn. destruct (f l); reflexivity. Qed.
Definition unit_of (b : bool) : nat := if b then 1%nat else 0%nat.
Lemma step_counts s a s' l i : yinv (base s) -> lact s a = Some (s', l) ->
  (unit_of (pending s i) + unit_of (starts i l) = unit_of (outcome i l) + unit_of (pending s' i))%nat.
Proof.
  intros Y E. pose proof (yinv_act _ _ _ _ Y E) as Y'.
  assert (C : (exists w err, a = DWrite i w err) \/ (forall w err, a <> DWrite i w err)).
  { destruct a as [?|j ? ?| |]; try (right; discriminate). destruct (Nat.eq_dec j i) as [->|N]; [left; eauto|right; congruence]. }
  destruct C as [(w & err & ->)|N].
  - cbn [lact] in E. unfold life_write, write_step in E. pose proof (proj2 Y i) as P. pose proof (proj2 Y' i) as P'. unfold pending. destruct (writer (base s) i) eqn:W; cbn [pc_ok] in P;
      repeat match type of E with context [match ?x with _ => _ end] => lazymatch x with context [match _ with _ => _ end] => fail | _ => destruct x eqn:?; try discriminate E end end; try discriminate E; injection E as <- <-; cbn; unfold upd; rewrite ?Nat.eqb_refl; cbn; rewrite ?Nat.eqb_refl; cbn; try reflexivity; exfalso; intuition congruence.
  - assert (Pe : pending s' i = pending s i) by (unfold pending; rewrite (other_acts _ _ _ _ _ E N); reflexivity). rewrite Pe.
    assert (Q : starts i l = false /\ outcome i l = false); [|destruct Q as [-> ->]; cbn; lia].
    destruct a as [k err|j w err| |]; cbn [lact] in E.
    + unfold loop_step, read_step in E. repeat match type of E with context [match ?x with _ => _ end] => lazymatch x with context [match _ with _ => _ end] => fail | _ => destruct x eqn:?; try discriminate E end end; try discriminate E; injection E as <- <-; cbn; auto.
    + assert (D : j <> i) by (intros ->; apply (N w err); reflexivity). apply Nat.eqb_neq in D. unfold life_write, write_step in E.
      repeat match type of E with context [match ?x with _ => _ end] => lazymatch x with context [match _ with _ => _ end] => fail | _ => destruct x eqn:?; try discriminate E end end; try discriminate E; injection E as <- <-; cbn; rewrite ?D; auto.
    + unfold close_step in E. destruct (owner s); [|destruct (loop s); try discriminate E|]; injection E as <- <-; auto.
    + unfold connect_step in E. destruct (owner s); try discriminate E. destruct (loop s); try discriminate E. injection E as <- <-. auto.
Qed.
Theorem one_outcome tr s i : lrun l_init tr s ->
  count (starts i) (llabels tr) = (count (outcome i) (llabels tr) + if pending s i then 1 else 0)%nat.
Proof.
  intro R. remember l_init as z eqn:Z. induction R as [s|s tr s' a l s'' R IH E]; [subst; reflexivity|]. specialize (IH Z). subst s. pose proof (step_counts _ _ _ _ i (yinv_reached _ _ R) E) as C.
  unfold llabels in *. rewrite map_app. cbn [map snd]. rewrite !count_snoc, IH. unfold unit_of in C. destruct (pending s' i), (pending s'' i), (starts i l), (outcome i l); lia.
Qed.
