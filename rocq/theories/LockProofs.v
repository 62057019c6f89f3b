(** Mutual exclusion, attribution of response lines to writes, death of the read thread. *)
From Verif Require Import Base RegexModel RegexProofs SerialModel SerialSpec SerialProofs ThreadProofs.

(** ** The lock *)
Definition phase (s : sstate) (w : wpc) : Prop :=
  match w with
  | WIdle | WFail => False
  | WCheck _ | WSetResp _ | WSendNW _ | WRel => evt s = None
  | WSetEvt _ => evt s = None /\ exists r, resp s = Some r /\ (r < fresh s)%nat
  | WSend _ | WLoad | WClrEvt _ => exists e r, evt s = Some e /\ resp s = Some r /\ (e < fresh s)%nat /\ (r < fresh s)%nat
  | WWait e => exists r, evt s = Some e /\ resp s = Some r /\ (e < fresh s)%nat /\ (r < fresh s)%nat
  | WClrExp _ | WRet _ => evt s = None /\ exists r, resp s = Some r /\ (r < fresh s)%nat
  end.
Definition locked (s : sstate) : Prop :=
  match lock s with
  | None => evt s = None /\ forall j, writer s j = WIdle
  | Some i => phase s (writer s i) /\ forall j, j <> i -> writer s j = WIdle
  end.
Lemma locked_owner s i w : locked s -> writer s i = w -> w <> WIdle -> lock s = Some i /\ phase s w /\ forall j, j <> i -> writer s j = WIdle.
Proof.
  unfold locked. destruct (lock s) as [k|].
  - intros [P O] W N. destruct (Nat.eq_dec i k) as [->|D]; [rewrite W in P; auto|]. rewrite (O _ D) in W. congruence.
  - intros [_ O] W N. rewrite (O i) in W. congruence.
Qed.
Lemma locked_read s i s' l : locked s -> read_step s i = Some (s', l) ->
  lock s' = lock s /\ evt s' = evt s /\ resp s' = resp s /\ fresh s' = fresh s /\ writer s' = writer s /\ expect s' = expect s.
Proof.
  intros _ H. unfold read_step in H. cbv zeta in H. break_step H; cbn; repeat split; congruence.
Qed.
Lemma phase_eq s s' w : evt s' = evt s -> resp s' = resp s -> fresh s' = fresh s -> phase s w -> phase s' w.
Proof. intros E R F. destruct w; cbn; rewrite ?E, ?R, ?F; auto. Qed.
Lemma locked_step s a s' l : locked s -> act s a = Some (s', l) -> locked s'.
Proof.
  intros L H. destruct a as [ri|i w].
  - cbn in H. destruct (locked_read _ _ _ _ L H) as (E1 & E2 & E3 & E4 & E5 & _). unfold locked. rewrite E1, E5.
    unfold locked in L. destruct (lock s) as [k|]; [|rewrite E2; auto]. destruct L as [P O]. split; auto. eapply phase_eq; eauto.
  - cbn [act] in H. unfold write_step in H. cbv zeta in H. destruct (writer s i) eqn:W.
    + destruct (lock s) eqn:LK; [discriminate|]. injection H as <- <-. unfold locked in *. rewrite LK in L. cbn. rewrite upd_same. cbn.
      destruct L as [E O]. split; auto. intros j N. rewrite upd_other; auto.
    + destruct (locked_owner _ _ _ L W ltac:(discriminate)) as (LK & P & O). unfold locked.
      break_step H; cbn; rewrite LK, upd_same; cbn; (split; [auto|intros j N; rewrite upd_other; auto]).
    + destruct (locked_owner _ _ _ L W ltac:(discriminate)) as (LK & P & O). unfold locked.
      break_step H; cbn; rewrite LK, upd_same; cbn; (split; [|intros j N; rewrite upd_other; auto]). cbn in P. eauto.
    + destruct (locked_owner _ _ _ L W ltac:(discriminate)) as (LK & P & O). unfold locked.
      break_step H; cbn; rewrite LK, upd_same; cbn; (split; [|intros j N; rewrite upd_other; auto]).
      destruct P as (_ & r & Hr & Hf). exists (fresh s), r. repeat split; auto.
    + destruct (locked_owner _ _ _ L W ltac:(discriminate)) as (LK & P & O). unfold locked.
      break_step H; cbn; rewrite LK, upd_same; cbn; (split; [auto|intros j N; rewrite upd_other; auto]).
    + destruct (locked_owner _ _ _ L W ltac:(discriminate)) as (LK & P & O). unfold locked.
      destruct P as (e & r & He & Hr & Hf). rewrite He in H. injection H as <- <-.
      cbn; rewrite LK, upd_same; cbn; (split; [exists r; auto|intros j N; rewrite upd_other; auto]).
    + destruct (locked_owner _ _ _ L W ltac:(discriminate)) as (LK & P & O). unfold locked. destruct P as (r & P).
      break_step H; cbn; rewrite LK, upd_same; cbn; (split; [exists e, r; auto|intros j N; rewrite upd_other; auto]).
    + destruct (locked_owner _ _ _ L W ltac:(discriminate)) as (LK & P & O). unfold locked. destruct P as (e & r & P).
      break_step H; cbn; rewrite LK, upd_same; cbn; (split; [split; auto; exists r; tauto|intros j N; rewrite upd_other; auto]).
    + destruct (locked_owner _ _ _ L W ltac:(discriminate)) as (LK & P & O). unfold locked.
      break_step H; cbn; rewrite LK, upd_same; cbn; (split; [auto|intros j N; rewrite upd_other; auto]).
    + destruct (locked_owner _ _ _ L W ltac:(discriminate)) as (LK & P & O). unfold locked. destruct P as (E & r & Hr & Hf).
      rewrite Hr in H. injection H as <- <-. cbn; rewrite LK, upd_same; cbn; (split; [auto|intros j N; rewrite upd_other; auto]).
    + destruct (locked_owner _ _ _ L W ltac:(discriminate)) as (LK & P & O). unfold locked.
      break_step H; cbn; rewrite LK, upd_same; cbn; (split; [auto|intros j N; rewrite upd_other; auto]).
    + destruct (locked_owner _ _ _ L W ltac:(discriminate)) as (LK & P & O). unfold locked.
      injection H as <- <-. cbn. split; auto. intro j. destruct (Nat.eq_dec j i) as [->|N]; [rewrite upd_same; auto|rewrite upd_other; auto].
    + discriminate.
Qed.
Lemma locked_init : locked s_init.
Proof. cbn. auto. Qed.
Lemma run_inv (P : sstate -> Prop) : (forall s a s' l, P s -> act s a = Some (s', l) -> P s') ->
  forall s tr s', run s tr s' -> P s -> P s'.
Proof. intros St s tr s' R. induction R; eauto. Qed.
Lemma run_locked tr s : run s_init tr s -> locked s.
Proof. intro R. eapply run_inv; [intros; eapply locked_step; eauto|eauto|apply locked_init]. Qed.

(** ** At most one command on the wire *)
Definition busy_pc (w : wpc) : bool := match w with WLoad | WWait _ | WClrEvt _ | WClrExp _ | WRet _ => true | _ => false end.
Definition wire_of (s : sstate) : wire :=
  match lock s with Some i => if busy_pc (writer s i) then Busy i else Free | None => Free end.
Lemma wire_snoc tr l : wire_after (tr ++ [l]) = wire_step (wire_after tr) l.
Proof. unfold wire_after. rewrite fold_left_app. reflexivity. Qed.
Lemma wire_kept tr s : run s_init tr s -> wire_after (labels tr) = wire_of s.
Proof.
  intro R. remember s_init as s0 eqn:E0. induction R as [s|s tr s' a l s'' R IH H]; subst; [reflexivity|].
  specialize (IH eq_refl). pose proof (run_locked _ _ R) as L. rewrite labels_app. cbn [labels map snd]. fold (labels tr).
  rewrite wire_snoc, IH. clear IH R. destruct a as [ri|i w].
  - cbn in H. destruct (locked_read _ _ _ _ L H) as (E1 & _ & _ & _ & E5 & _). unfold wire_of. rewrite E1, E5.
    assert (match l with LSend _ _ _ | LReturn _ _ | LTimeout _ _ => False | _ => True end) as Q
      by (unfold read_step in H; cbv zeta in H; break_step H; exact I).
    destruct (lock s') as [k|]; [destruct (busy_pc (writer s' k))|]; destruct l; try contradiction; reflexivity.
  - cbn [act] in H. unfold write_step in H. cbv zeta in H. unfold wire_of at 1. destruct (writer s' i) eqn:W.
    1: { destruct (lock s') eqn:LK; [discriminate|]. injection H as <- <-. cbn. unfold wire_of. cbn. rewrite upd_same. reflexivity. }
    all: destruct (locked_owner _ _ _ L W ltac:(discriminate)) as (LK & P & O); rewrite LK, W.
    all: try (break_step H; unfold wire_of; cbn; rewrite ?LK, ?upd_same; cbn; rewrite ?Nat.eqb_refl; reflexivity).
    + destruct P as (e & r & He & Hr & Hf). rewrite He in H. injection H as <- <-. unfold wire_of. cbn. rewrite LK, upd_same. reflexivity.
    + destruct P as (E & r & Hr & Hf). rewrite Hr in H.
      destruct ok; injection H as <- <-; unfold wire_of; cbn; rewrite LK, upd_same, Nat.eqb_refl; reflexivity.
Qed.
Lemma send_locked tr s a s' i d w : run s_init tr s -> act s a = Some (s', LSend i d w) -> lock s = Some i /\ lock s' = Some i.
Proof.
  intros R H. pose proof (run_locked _ _ R) as L. destruct a as [ri|j wn].
  - cbn in H. unfold read_step in H. cbv zeta in H. exfalso.
    repeat match type of H with context [match ?x with _ => _ end] => destruct x; try discriminate H end.
  - cbn [act] in H. unfold write_step in H. cbv zeta in H. destruct (writer s j) eqn:W.
    all: try discriminate H.
    all: try (exfalso; repeat match type of H with context [match ?x with _ => _ end] => destruct x; try discriminate H end; discriminate H).
    all: destruct (locked_owner _ _ _ L W ltac:(discriminate)) as (LK & P & O); injection H as <- <- <- <-; auto.
Qed.
Lemma never_crash tr s i : run s_init tr s -> ~ In (LCrashW i) (labels tr).
Proof.
  intros R. remember s_init as s0 eqn:E0. induction R as [s|s tr s' a l s'' R IH H]; subst; [intros []|].
  pose proof (run_locked _ _ R) as L. rewrite labels_app, in_app_iff. intros [C|[C|[]]]; [apply IH; auto|]. cbn in C. subst l.
  destruct a as [ri|j wn]; cbn [act] in H; [unfold read_step in H|unfold write_step in H]; cbv zeta in H.
  - repeat match type of H with context [match ?x with _ => _ end] => destruct x; try discriminate H end.
  - destruct (writer s' j) eqn:W.
    1: destruct (lock s'); discriminate.
    all: destruct (locked_owner _ _ _ L W ltac:(discriminate)) as (LK & P & O).
    all: try (repeat match type of H with context [match ?x with _ => _ end] => destruct x; try discriminate H end; discriminate H).
    + destruct P as (e & r & He & Hr & Hf). rewrite He in H. discriminate.
    + destruct P as (E & r & Hr & Hf). rewrite Hr in H. destruct ok; discriminate.
Qed.

(** ** Traces *)
Lemma in_flight_snoc tr l x : in_flight tr x -> not_routed l -> in_flight (tr ++ [l]) x.
Proof.
  intros (a & b & -> & F) N. exists a, (b ++ [l]). rewrite <- app_assoc. split; auto. apply Forall_app; auto.
Qed.
Lemma in_flight_line tr x c : in_flight (tr ++ [LLine x c]) (x, c).
Proof. exists tr, []. auto. Qed.
Lemma open_snoc tr l : write_open tr -> not_over l -> write_open (tr ++ [l]).
Proof. intros (a & i & b & -> & F) N. exists a, i, (b ++ [l]). rewrite <- app_assoc. split; auto. apply Forall_app; auto. Qed.

(** the line being handled is in flight *)
Lemma reader_in_flight tr s : run s_init tr s ->
  match reader s with
  | RIsSet l c | RResp l c | RApp l c _ => in_flight (labels tr) (l, c)
  | RNote l => exists c, in_flight (labels tr) (l, c)
  | _ => True
  end.
Proof.
  intro R. remember s_init as s0 eqn:E0. induction R as [s|s tr s' a l s'' R IH H]; subst; [exact I|].
  specialize (IH eq_refl). rewrite labels_app. cbn [labels map snd]. fold (labels tr). destruct a as [ri|i w].
  - cbn [act] in H. unfold read_step in H. cbv zeta in H. destruct (reader s') eqn:ER; break_step H; cbn [set_reader reader]; rewrite ?ER; auto;
      try (eexists; apply in_flight_snoc; [eassumption|exact I]); try (eexists; apply in_flight_line);
      try (apply in_flight_snoc; [assumption|exact I]); apply in_flight_line.
  - assert (reader s'' = reader s' /\ not_routed l) as [-> N].
    { cbn [act] in H. unfold write_step in H. cbv zeta in H. break_step H; split; reflexivity || exact I. }
    destruct (reader s'); auto; try (apply in_flight_snoc; auto). destruct IH as [c IH]. exists c. apply in_flight_snoc; auto.
Qed.
(** while an event exists, or the lock owner is about to return, a write is open *)
Definition open_pc (w : wpc) : bool := match w with WSend _ | WLoad | WWait _ | WClrEvt _ | WClrExp _ | WRet _ => true | _ => false end.
Lemma write_not_over s i w s' l : write_step s i w = Some (s', l) -> open_pc (writer s i) = true -> open_pc (writer s' i) = true -> not_over l.
Proof.
  intros H O O'. unfold write_step in H. cbv zeta in H. destruct (writer s i) eqn:W; try discriminate; break_step H; try exact I;
    cbn in O'; rewrite upd_same in O'; discriminate.
Qed.
Lemma reader_not_over s i s' l : read_step s i = Some (s', l) -> not_over l.
Proof. intros H. unfold read_step in H. cbv zeta in H. break_step H; exact I. Qed.
Lemma open_kept tr s : run s_init tr s -> forall i, open_pc (writer s i) = true -> write_open (labels tr).
Proof.
  intro R. remember s_init as s0 eqn:E0. induction R as [s|s tr s' a l s'' R IH H]; subst; [intros i O; discriminate|].
  specialize (IH eq_refl). pose proof (run_locked _ _ R) as L. rewrite labels_app. cbn [labels map snd]. fold (labels tr).
  intros i O. destruct a as [ri|j w]; cbn [act] in H.
  - destruct (locked_read _ _ _ _ L H) as (_ & _ & _ & _ & E5 & _). rewrite E5 in O. apply open_snoc; [eauto|]. eapply reader_not_over; eauto.
  - pose proof (locked_step _ (AWrite j w) _ _ L H) as L'.
    assert (i = j) as <-.
    { assert (writer s'' i <> WIdle) as N by (intro E; rewrite E in O; discriminate).
      destruct (locked_owner _ _ _ L' eq_refl N) as (LK & _ & Ot). destruct (Nat.eq_dec i j) as [|D]; auto. exfalso.
      assert (writer s'' j = WIdle) as W by (apply Ot; auto). 
      unfold write_step in H. cbv zeta in H. destruct (writer s' j) eqn:WJ.
      all: try (break_step H; cbn in W; rewrite upd_same in W; discriminate). }
    destruct (open_pc (writer s' i)) eqn:O1.
    + apply open_snoc; [eauto|]. eapply write_not_over; eauto.
    + unfold write_step in H. cbv zeta in H. destruct (writer s' i) eqn:WJ; try discriminate O1;
        break_step H; cbn in O; rewrite upd_same in O; cbn in O; try discriminate O.
      exists (labels tr), i, []. auto.
Qed.

(** a line that is put into a response was handed over while a write was open *)
Lemma flight_open tr s : run s_init tr s ->
  match reader s with
  | RIsSet l c | RResp l c | RApp l c _ => exists a b, labels tr = a ++ LLine l c :: b /\ Forall not_routed b /\ write_open a
  | _ => True
  end.
Proof.
  intro R. remember s_init as s0 eqn:E0. induction R as [s|s tr s' a l s'' R IH H]; subst; [exact I|].
  specialize (IH eq_refl). pose proof (run_locked _ _ R) as L. rewrite labels_app. cbn [labels map snd]. fold (labels tr).
  assert (K : forall x c, not_routed l -> (exists a b, labels tr = a ++ LLine x c :: b /\ Forall not_routed b /\ write_open a) ->
    exists a b, labels tr ++ [l] = a ++ LLine x c :: b /\ Forall not_routed b /\ write_open a).
  { intros x c N (p & q & -> & F & W). exists p, (q ++ [l]). rewrite <- app_assoc. repeat split; auto. apply Forall_app; auto. }
  destruct a as [ri|i w].
  - cbn [act] in H. unfold read_step in H. cbv zeta in H. destruct (reader s') eqn:ER; break_step H; cbn [set_reader reader]; rewrite ?ER; auto;
      try (apply K; [exact I|assumption]).
    exists (labels tr), []. split; auto. split; auto. unfold locked in L. destruct (lock s') as [k|] eqn:LK; [|destruct L; congruence].
    destruct L as [P _]. apply (open_kept _ _ R k). destruct (writer s' k); cbn in *; auto; first [contradiction | congruence | destruct P; congruence].
  - assert (reader s'' = reader s' /\ not_routed l) as [-> N].
    { cbn [act] in H. unfold write_step in H. cbv zeta in H. break_step H; split; reflexivity || exact I. }
    destruct (reader s'); auto.
Qed.
Lemma appended_open tr s tr1 x c tr2 : run s_init tr s -> labels tr = tr1 ++ LAppend x c :: tr2 ->
  exists a b, tr1 = a ++ LLine x c :: b /\ Forall not_routed b /\ write_open a.
Proof.
  intros R E. apply labels_split in E as (ta & y & tb & -> & <- & <-). apply run_split in R as (m & R1 & R2).
  change ((y, LAppend x c) :: tb) with ([(y, LAppend x c)] ++ tb) in R2. apply run_split in R2 as (m2 & R2 & _). apply run_one in R2.
  pose proof (flight_open _ _ R1) as F. destruct y as [ri|i w].
  - cbn [act] in R2. unfold read_step in R2. cbv zeta in R2. destruct (reader m).
    all: repeat match type of R2 with context [match ?x with _ => _ end] => destruct x; try discriminate R2 end; try discriminate R2.
    injection R2 as _ -> ->. exact F.
  - cbn [act] in R2. unfold write_step in R2. cbv zeta in R2.
    repeat match type of R2 with context [match ?x with _ => _ end] => destruct x; try discriminate R2 end; try discriminate R2.
Qed.
