(** Proofs about calls and several threads: careful executions, and executions that go wrong. *)
From Verif Require Import Base ModemCore SmsModel CallModel TrackProofs ModemSpec BookSpec BookProofs RaceModel RaceSpec RaceProofs RaceInv.

(** ** Careful executions *)
Definition tinv (s : system) (t : thread) : Prop :=
  match t with
  | TEnd (EStop id n) => (exists c, has_call s n c /\ c_id c = id) /\ forall m, listed s id m -> m = n
  | TEnd (EDel id) => forall m c, listed s id m -> has_call s m c -> c_active c = false
  | THang n st => (exists x, st = HOver x) \/ exists c, has_call s n c /\ (forall m, listed s (c_id c) m -> m = n) /\ (st = HIn \/ st = HDel -> c_active c = false)
  | _ => True
  end.
Definition complete (s : system) : Prop := forall n c, has_call s n c -> c_active c = true -> listed s (c_id c) n.
Definition witnessed (s : system) : Prop := forall id n c, listed s id n -> has_call s n c -> c_active c = false ->
  exists i, at_thread s i (TEnd (EDel id)) \/ at_thread s i (THang n HIn) \/ at_thread s i (THang n HDel).
Record cinv (s : system) : Prop := { ci_ix : indexed s; ci_co : complete s; ci_wi : witnessed s; ci_th : Forall (tinv s) (sy_threads s) }.

(** the step of a thread, with its effect *)
Section Step.
Context (s s' : system) (i : nat) (l : label) (Ix : indexed s) (Ef : effect i (sy_phone s) (sy_phone s') l) (Ca : careful_step s l).
Lemma fwd n c : has_call s n c -> exists c', has_call s' n c' /\ same_party c c' /\ (c_active c' = true -> c_active c = true).
Proof. intro H. eapply effect_call; eauto. Qed.
Lemma back n c c' : has_call s n c -> has_call s' n c' -> same_party c c' /\ (c_active c' = true -> c_active c = true).
Proof. intros H H'. destruct (fwd _ _ H) as (c1 & H1 & S & A). unfold has_call in *. replace c1 with c' in * by congruence. auto. Qed.
Lemma removing_listed id t m : In t (sy_threads s) -> removing s id t -> listed s' id m -> listed s id m.
Proof.
  intros I R L. unfold listed in *. inversion Ef as [l0 Pl E1 E2|k f l0 T Pl E1 E2|c0 Ac E1 E2|id' k Z0 E1 E2]; rewrite <- E1 in L; auto.
  - cbn in L. apply zset_in in L as [L|L]; auto. injection L as -> _. rewrite <- E2 in Ca. cbn in Ca. destruct Ca as [_ F]. rewrite Forall_forall in F. exfalso. eapply F; eauto.
  - cbn in L. apply (without_in _ _ _ (zdel_without _ _)) in L as [L _]. auto.
Qed.
Lemma tinv_other t : In t (sy_threads s) -> tinv s t -> tinv s' t.
Proof.
  intros I H. destruct t as [st|st|n st|n st|nb ty st|nb cb st]; cbn in *; auto.
  - destruct st; auto.
    + destruct H as [(c & C & E) U]. split.
      * destruct (fwd _ _ C) as (c' & C' & (S & _) & _). exists c'. split; auto. congruence.
      * intros m L. apply U. apply (removing_listed id (TEnd (EStop id n)) m); auto. left. eauto.
    + intros m c L C. assert (Ls : listed s id m). { apply (removing_listed id (TEnd (EDel id)) m); auto. right. left. auto. }
      destruct (proj2 Ix _ _ Ls) as (c0 & C0 & _). destruct (back _ _ _ C0 C) as [_ A]. specialize (H _ _ Ls C0). destruct (c_active c); auto. rewrite A in H; auto.
  - destruct H as [H|(c & C & U & A)]; auto. destruct (fwd _ _ C) as (c' & C' & (S & _) & A'). destruct st as [| | | | | | |x]; try (left; exists x; reflexivity); right; exists c'; (split; [exact C'|]);
      (split; [intros m L; rewrite S in L; apply U; eapply removing_listed; [exact I| |exact L]; right; right; exists n; eexists; exists c; split; [reflexivity|]; split; [discriminate|]; auto|]);
      intro X; (destruct (c_active c') eqn:E; auto; rewrite A' in A; auto).
Qed.
End Step.

Lemma zget_in_iff s id n : indexed s -> (zget (p_table (sy_phone s)) id = Some n <-> listed s id n).
Proof.
  intros [Nd _]. split; [apply zget_in|]. unfold listed. revert Nd. generalize (p_table (sy_phone s)). intro t. induction t as [|[j k] t IH]; cbn; [contradiction|]. intros Nd I. inversion Nd as [|? ? X Y]; subst.
  destruct (Z.eqb_spec j id) as [->|N].
  - destruct I as [I|I]; [congruence|]. exfalso. apply X. apply in_map_iff. exists (id, n). auto.
  - destruct I as [I|I]; [congruence|]. auto.
Qed.
Lemma listed_fun s id m n : indexed s -> listed s id m -> listed s id n -> m = n.
Proof. intros Ix A B. apply (zget_in_iff _ _ _ Ix) in A, B. congruence. Qed.
Lemma delete_gone i id p p' x j id' n : delete i id p = (p', x, LGone j id' n) -> id' = id.
Proof. unfold delete. destruct (zget _ id); intro H; [|discriminate]. injection H as _ _ _ <- _. auto. Qed.
Lemma mark_gone i n b p p' j id k : mark i n b p = (p', LGone j id k) -> False.
Proof. unfold mark. intro H. injection H as _ H. destruct (c_callback _); discriminate. Qed.
(** the threads that remove *)
Lemma gone_by i p t p' t' id n : thread_step i p t p' t' (LGone i id n) -> t = TEnd (EDel id) \/ exists k, t = THang k HDel /\ c_id (call_at p k) = id.
Proof.
  intros [H|[(x & H & _)|(o & H & _)]].
  - destruct t as [st|st|k st|k st|nb ty st|nb cb st]; cbn [go] in H.
    + destruct (end_go i p st) as [[[p1 st1] l1]|] eqn:G; [|discriminate]. injection H as _ _ ->. destruct st; cbn [end_go] in G; try discriminate; split_step G; try discriminate.
      * injection G; intros; subst. exfalso. eapply mark_gone; eauto.
      * injection G; intros; subst. left. f_equal. f_equal. symmetry. eapply delete_gone; eauto.
    + destruct (answered_go i p st) as [[[p1 st1] l1]|] eqn:G; [|discriminate]. injection H as _ _ ->. destruct st; cbn [answered_go] in G; try discriminate; split_step G; try discriminate. injection G; intros; subst. exfalso. eapply mark_gone; eauto.
    + destruct (hang_go i k p st) as [[[p1 st1] l1]|] eqn:G; [|discriminate]. injection H as _ _ ->. destruct st; cbn [hang_go] in G; try discriminate; split_step G; try discriminate.
      * injection G; intros; subst. exfalso. eapply mark_gone; eauto.
      * injection G; intros; subst. right. exists k. split; auto. symmetry. eapply delete_gone; eauto.
    + destruct (pick_go i k p st) as [[[p1 st1] l1]|] eqn:G; [|discriminate]. injection H as _ _ ->. destruct st; cbn [pick_go] in G; try discriminate; split_step G; try discriminate. injection G; intros; subst. exfalso. eapply mark_gone; eauto.
    + destruct (ring_go i nb ty p st) as [[[p1 st1] l1]|] eqn:G; [|discriminate]. injection H as _ _ ->. destruct st; cbn [ring_go] in G; try discriminate; split_step G; try discriminate.
    + destruct (dial_go i nb cb p st) as [[[p1 st1] l1]|] eqn:G; [|discriminate]. injection H as _ _ ->. destruct st; cbn [dial_go] in G; discriminate.
  - destruct t; cbn in H; try discriminate; destruct st; try discriminate.
  - destruct t; cbn in H; try discriminate; destruct st; try discriminate; split_step H; discriminate.
Qed.
Lemma go_end i p st p' t' l : go i p (TEnd st) = Some (p', t', l) -> exists st', end_go i p st = Some (p', st', l) /\ t' = TEnd st'.
Proof. cbn. destruct (end_go _ _ _) as [[[a b] c]|]; [|discriminate]. intro H. injection H as <- <- <-. eauto. Qed.
Lemma go_hang i p n st p' t' l : go i p (THang n st) = Some (p', t', l) -> exists st', hang_go i n p st = Some (p', st', l) /\ t' = THang n st'.
Proof. cbn. destruct (hang_go _ _ _ _) as [[[a b] c]|]; [|discriminate]. intro H. injection H as <- <- <-. eauto. Qed.
(** the kind of a thread stays *)
Lemma kind_end i p t p' st' l : thread_step i p t p' (TEnd st') l -> exists st, t = TEnd st.
Proof.
  intros [H|[(x & H & _)|(o & H & _)]]; destruct t; cbn in H; try discriminate; eauto;
  try (match type of H with match ?x with _ => _ end = _ => destruct x as [[[a b] c]|] end; discriminate); destruct st; try discriminate; split_step H; discriminate.
Qed.
Lemma kind_hang i p t p' n st' l : thread_step i p t p' (THang n st') l -> exists st, t = THang n st.
Proof.
  intros [H|[(x & H & _)|(o & H & _)]]; destruct t; cbn in H; try discriminate;
  try (match type of H with match ?x with _ => _ end = _ => destruct x as [[[a b] c]|] end; try discriminate; injection H as _ <- _ _; eauto; fail);
  destruct st; try discriminate; split_step H; try discriminate; injection H as <- _ _; eauto.
Qed.

(** only two steps make a call inactive *)
Definition calm (p p' : phone) : Prop := forall n c c', nth_error (p_calls p) n = Some c -> nth_error (p_calls p') n = Some c' -> c_active c' = c_active c.
Lemma calm_refl p : calm p p. Proof. intros n c c' H H'. congruence. Qed.
Lemma calm_alter n f p : (forall c, c_active (f c) = c_active c) -> calm p (alter n f p).
Proof. intros F k c c' H H'. cbn in H'. rewrite update_nth in H'. destruct (Nat.eqb n k); [rewrite H in H'; injection H' as <-; auto|congruence]. Qed.
Lemma calm_mark i n b p p' l : mark i n b p = (p', l) -> calm p p'.
Proof. unfold mark. intro H. injection H as <- _. apply calm_alter. auto. Qed.
Lemma calm_delete i id p p' x l : delete i id p = (p', x, l) -> calm p p'.
Proof. unfold delete. destruct (zget _ id); intro H; injection H as <- _ _; apply (calm_refl p). Qed.
Lemma calm_enter c p : calm p (enter c p).
Proof. intros k c0 c' H H'. cbn in H'. rewrite nth_error_app1 in H'; [congruence|]. apply nth_error_Some. congruence. Qed.
Lemma step_calm i p t p' t' l : thread_step i p t p' t' l ->
  calm p p' \/ (exists id n, t = TEnd (EStop id n) /\ t' = TEnd (EDel id) /\ p' = alter n (with_active false) p) \/ (exists n, t = THang n HStop /\ t' = THang n HIn /\ p' = alter n (with_active false) p).
Proof.
  intros [H|[(x & H & ->)|(o & H & ->)]]; [|left; apply calm_refl..].
  destruct t as [st|st|n st|n st|nb ty st|nb cb st]; cbn [go] in H.
  - destruct (end_go i p st) as [[[p1 st1] l1]|] eqn:G; [|discriminate]. injection H as <- <- <-.
    destruct st; cbn [end_go] in G; try discriminate; split_step G; injection G as <- <- <-; try (left; apply calm_refl); try (left; eapply calm_mark; eassumption); try (left; eapply calm_delete; eassumption). right. left. eauto.
  - destruct (answered_go i p st) as [[[p1 st1] l1]|] eqn:G; [|discriminate]. injection H as <- <- <-. left.
    destruct st; cbn [answered_go] in G; try discriminate; split_step G; injection G as <- <- <-; try apply calm_refl; eapply calm_mark; eassumption.
  - destruct (hang_go i n p st) as [[[p1 st1] l1]|] eqn:G; [|discriminate]. injection H as <- <- <-.
    destruct st; cbn [hang_go] in G; try discriminate; split_step G; injection G as <- <- <-; try (left; apply calm_refl); try (left; eapply calm_mark; eassumption); try (left; eapply calm_delete; eassumption).
    + left. destruct (c_incoming _); [apply calm_alter; auto|apply calm_refl].
    + right. right. eauto.
  - destruct (pick_go i n p st) as [[[p1 st1] l1]|] eqn:G; [|discriminate]. injection H as <- <- <-. left.
    destruct st; cbn [pick_go] in G; try discriminate; split_step G; injection G as <- <- <-; try apply calm_refl; try (eapply calm_mark; eassumption). apply calm_alter; auto.
  - destruct (ring_go i nb ty p st) as [[[p1 st1] l1]|] eqn:G; [|discriminate]. injection H as <- <- <-. left.
    destruct st; cbn [ring_go] in G; try discriminate; split_step G; injection G as <- <- <-; try apply calm_refl; try apply calm_enter. apply calm_alter; auto.
  - destruct (dial_go i nb cb p st) as [[[p1 st1] l1]|] eqn:G; [|discriminate]. injection H as <- <- <-. left.
    destruct st; cbn [dial_go] in G; try discriminate; injection G as <- <- <-; [apply calm_refl|apply calm_enter].
Qed.

Section Own.
Context (s s' : system) (i : nat) (t t' : thread) (l : label).
Context (Ci : cinv s) (Ti : at_thread s i t) (St : thread_step i (sy_phone s) t (sy_phone s') t' l) (Th : sy_threads s' = update (sy_threads s) i (fun _ => t')) (Ca : careful_step s l).
Lemma Ix : indexed s. Proof. apply Ci. Qed.
Lemma Ef : effect i (sy_phone s) (sy_phone s') l. Proof. eapply step_effect; eauto. Qed.
Lemma Tt : tinv s t.
Proof. eapply (proj1 (Forall_forall _ _)); [apply Ci|]. eapply nth_error_In; eauto. Qed.
Lemma in_t : In t (sy_threads s). Proof. eapply nth_error_In; eauto. Qed.
Lemma tinv_own : tinv s' t'.
Proof.
  pose proof Tt as H. pose proof Ef as EF. pose proof in_t as IT. pose proof Ix as IX. destruct t' as [st'|st'|n st'|n st'|nb ty st'|nb cb st']; cbn; auto.
  - destruct (kind_end _ _ _ _ _ _ St) as (st & Et). rewrite Et in *. destruct st'; auto.
    + (* EStop *) destruct St as [G|[(x & G & _)|(o & G & _)]].
      * apply go_end in G as (st1 & G & E). injection E as <-. destruct st; cbn [end_go] in G; try discriminate; split_step G; try discriminate; try (match goal with E : end_turn _ _ ?x = Some _ |- _ => destruct x; cbn in E; try discriminate E; injection E as <-; discriminate G end). injection G as Ep <- <- _.
        match goal with Z0 : zget _ _ = Some _ |- _ => apply zget_listed in Z0; rename Z0 into L end. unfold has_call, listed in *. rewrite <- Ep. split.
        -- destruct (proj2 IX _ _ L) as (c & C & E). eauto.
        -- intros m Lm. exact (listed_fun s _ _ _ IX Lm L).
      * destruct st; discriminate G.
      * cbn in G. destruct st; try discriminate G; split_step G; injection G as -> _; match goal with E : end_turn _ _ (some_turn o) = _ |- _ => destruct o; discriminate E end.
    + (* EDel *) destruct St as [G|[(x & G & _)|(o & G & _)]].
      * apply go_end in G as (st1 & G & E). injection E as <-. destruct st; cbn [end_go] in G; try discriminate; split_step G; try discriminate; try (match goal with E : end_turn _ _ ?x = Some _ |- _ => destruct x; cbn in E; try discriminate E; injection E as <-; discriminate G end). injection G as Ep <- _.
        intros m c L C. cbn in H. destruct H as [(c0 & C0 & E) U]. unfold has_call, listed in *. rewrite <- Ep in *. cbn in L, C. apply U in L as ->. rewrite update_nth, Nat.eqb_refl, C0 in C. cbn in C. injection C as <-. auto.
      * destruct st; discriminate G.
      * cbn in G. destruct st; try discriminate G; split_step G; injection G as -> _; match goal with E : end_turn _ _ (some_turn o) = _ |- _ => destruct o; discriminate E end.
  - destruct (kind_hang _ _ _ _ _ _ _ St) as (st & Et). rewrite Et in *. cbn in H. destruct H as [(x & ->)|(c & C & U & A)].
    { destruct St as [G|[(y & G & _)|(o & G & _)]]; cbn in G; discriminate. }
    assert (K : forall st0, st = st0 -> (forall x, st0 <> HOver x) -> forall m, listed s' (c_id c) m -> m = n).
    { intros st0 -> N m L. apply U. eapply (removing_listed s s' i l EF Ca); [exact IT| |exact L]. right. right. exists n, st0, c. auto. }
    destruct (fwd s s' i l EF _ _ C) as (c' & C' & (S & _) & A').
    assert (Go : forall st0, st = st0 -> (forall x, st0 <> HOver x) -> (st' = HIn \/ st' = HDel -> c_active c' = false) -> (exists x, st' = HOver x) \/
       exists c1, has_call s' n c1 /\ (forall m, listed s' (c_id c1) m -> m = n) /\ (st' = HIn \/ st' = HDel -> c_active c1 = false)).
    { intros st0 E N F. right. exists c'. split; auto. split; auto. rewrite S. eapply K; eauto. }
    destruct St as [G|[(y & G & _)|(o & G & _)]]; [| |cbn in G; discriminate].
    + apply go_hang in G as (st1 & G & E). injection E as <-. pose proof (call_at_is _ _ _ C) as Ec. destruct st; cbn [hang_go] in G; try discriminate; (eapply Go; [reflexivity|discriminate|]).
      * injection G as _ <- _. intros [X|X]; discriminate X.
      * rewrite Ec in G. injection G as _ <- _. destruct (c_active c) eqn:Ac; [intros [X|X]; discriminate X|]. intros _. destruct (c_active c'); auto. discriminate (A' eq_refl).
      * unfold mark in G. injection G as _ <- _. intros [X|X]; discriminate X.
      * injection G as Ep <- _. intros _. unfold has_call in C'. rewrite <- Ep in C'. cbn in C'. rewrite update_nth, Nat.eqb_refl, C in C'. cbn in C'. injection C' as <-. auto.
      * intros _. specialize (A (or_introl eq_refl)). destruct (c_active c'); auto. rewrite A' in A; auto.
      * intros _. specialize (A (or_intror eq_refl)). destruct (c_active c'); auto. rewrite A' in A; auto.
    + destruct st; try discriminate G. injection G as <- _. destruct y; [|left; eauto]. eapply Go; [reflexivity|discriminate|]. intros [X|X]; discriminate X.
Qed.
Lemma removed_inactive id n : l = LGone i id n -> forall m c, listed s id m -> has_call s m c -> c_active c = false.
Proof.
  intros E m c L C. rewrite E in St. pose proof Tt as H. destruct (gone_by _ _ _ _ _ _ _ St) as [Et|(k & Et & Ek)]; rewrite Et in H; cbn in H; [eauto|].
  destruct H as [(x & X)|(c0 & C0 & U & A)]; [discriminate|]. rewrite (call_at_is _ _ _ C0) in Ek. rewrite <- Ek in L. apply U in L as ->. assert (c = c0) as -> by (unfold has_call in *; congruence). auto.
Qed.
Lemma complete_own : complete s'.
Proof.
  intros n c' C' A'. pose proof Ef as EF. pose proof removed_inactive as RI. pose proof Ix as IX. inversion EF as [l0 Pl E1 E2|k f l0 T Pl E1 E2|c0 Ac E1 E2|id k Z0 E1 E2]; unfold has_call in C'; unfold listed; rewrite <- E1 in C' |- *; cbn in C' |- *.
  - apply Ci; auto.
  - rewrite update_nth in C'. destruct (Nat.eqb_spec k n) as [->|N]; [|apply Ci; auto]. destruct (nth_error _ n) as [c|] eqn:C; [|discriminate]. cbn in C'. injection C' as <-. destruct (T c) as [(S & _) A]. rewrite S. apply Ci; auto.
  - pose proof Ca as Ca0. rewrite <- E2 in Ca0. destruct Ca0 as [Fr _]. destruct (Nat.lt_ge_cases n (length (p_calls (sy_phone s)))) as [Lt|Ge].
    + rewrite nth_error_app1 in C' by auto. apply (entered_in _ _ _ _ (zset_entered _ _ _) (proj1 IX)). right. assert (L : listed s (c_id c') n) by (apply Ci; auto). split; [exact L|]. cbn. intro E. rewrite E in L. eapply Fr; eauto.
    + rewrite nth_error_app2 in C' by auto. destruct (n - _)%nat eqn:D; [|destruct n0; discriminate]. cbn in C'. injection C' as <-. apply (entered_in _ _ _ _ (zset_entered _ _ _) (proj1 IX)). left. f_equal. lia.
  - apply (without_in _ _ _ (zdel_without _ _)). assert (L : listed s (c_id c') n) by (apply Ci; auto). split; [exact L|]. cbn. intro E. rewrite E in L. rewrite (RI id k (eq_sym E2) n c') in A'; auto. discriminate.
Qed.
Lemma at_new : at_thread s' i t'.
Proof. unfold at_thread. rewrite Th, update_nth, Nat.eqb_refl, Ti. auto. Qed.
Lemma at_old k u : at_thread s k u -> k <> i -> at_thread s' k u.
Proof. intros H N. unfold at_thread. rewrite Th, update_nth. destruct (Nat.eqb_spec i k); [congruence|auto]. Qed.
Lemma witnessed_own : witnessed s'.
Proof.
  intros id n c' L C' A'. pose proof Ef as EF. pose proof Ix as IX. pose proof Tt as TT. pose proof at_new as AN. pose proof at_old as AO.
  assert (Ol : listed s id n -> exists c, has_call s n c /\ c_id c = id /\ (c_active c = false -> exists k, at_thread s' k (TEnd (EDel id)) \/ at_thread s' k (THang n HIn) \/ at_thread s' k (THang n HDel))).
  { intro Ls. destruct (proj2 IX _ _ Ls) as (c & C & E). exists c. split; auto. split; auto. intro A. destruct (ci_wi _ Ci _ _ _ Ls C A) as (k & W).
    destruct (Nat.eq_dec k i) as [->|N]; [|exists k; destruct W as [W|[W|W]]; eauto using AO].
    assert (Dl : forall x e, delete i id (sy_phone s) = (sy_phone s', x, e) -> False).
    { intros x e D. unfold delete in D. destruct (zget _ id) eqn:Z0; injection D as D _ _; [|eapply zget_unlisted; eauto]. unfold listed in L. rewrite <- D in L. cbn in L. apply (without_in _ _ _ (zdel_without _ _)) in L as [_ X]. cbn in X. congruence. }
    unfold at_thread in W, Ti. destruct W as [W|[W|W]]; assert (Et : t = _) by (rewrite Ti in W; injection W as W; exact W); pose proof St as St0; rewrite Et in St0; destruct St0 as [G|[(x & G & _)|(o & G & _)]]; try discriminate G.
    - apply go_end in G as (st' & G & _). cbn [end_go] in G. destruct (delete i id (sy_phone s)) as [[p1 x1] e1] eqn:D. injection G as -> _ _. exfalso. eapply Dl; eauto.
    - apply go_hang in G as (st' & G & Et'). cbn [hang_go] in G. rewrite (call_at_is _ _ _ C), E in G. destruct (zget _ id) eqn:Z0; [|exfalso; eapply zget_unlisted; eauto]. injection G as _ <- _. exists i. right. right. rewrite <- Et'. exact AN.
    - apply go_hang in G as (st' & G & _). cbn [hang_go] in G. rewrite (call_at_is _ _ _ C), E in G. destruct (delete i id (sy_phone s)) as [[p1 x1] e1] eqn:D. injection G as -> _ _. exfalso. eapply Dl; eauto. }
  destruct (Nat.lt_ge_cases n (length (p_calls (sy_phone s)))) as [Lt|Ge].
  - assert (Ls : listed s id n) by (eapply effect_listed; eauto). destruct (Ol Ls) as (c & C & E & W). destruct (c_active c) eqn:A; [|auto].
    destruct (step_calm _ _ _ _ _ _ St) as [K|[(id' & k & E1 & E2 & E3)|(k & E1 & E2 & E3)]].
    + specialize (K _ _ _ C C'). congruence.
    + assert (k = n) as ->. { destruct (Nat.eq_dec k n); auto. unfold has_call in C'. rewrite E3 in C'. cbn in C'. rewrite update_nth in C'. destruct (Nat.eqb_spec k n); [congruence|]. unfold has_call in C. congruence. }
      rewrite E1 in TT. cbn in TT. destruct TT as [(c0 & C0 & X) _]. assert (id' = id) as -> by (unfold has_call in *; congruence). exists i. left. rewrite <- E2. exact AN.
    + assert (k = n) as ->. { destruct (Nat.eq_dec k n); auto. unfold has_call in C'. rewrite E3 in C'. cbn in C'. rewrite update_nth in C'. destruct (Nat.eqb_spec k n); [congruence|]. unfold has_call in C. congruence. }
      exists i. right. left. rewrite <- E2. exact AN.
  - exfalso. unfold has_call in C'. inversion EF as [l0 Pl E1 E2|k f l0 T Pl E1 E2|c0 Ac E1 E2|id' k Z0 E1 E2]; rewrite <- E1 in C'; cbn in C'.
    + apply nth_error_None in Ge. congruence.
    + rewrite update_nth in C'. apply nth_error_None in Ge. destruct (Nat.eqb k n); rewrite Ge in C'; discriminate.
    + rewrite nth_error_app2 in C' by auto. destruct (n - _)%nat as [|d]; [|destruct d; discriminate]. cbn in C'. congruence.
    + apply nth_error_None in Ge. congruence.
Qed.
End Own.

Lemma cinv_step s a s' l : cinv s -> act s a = Some (s', l) -> careful_step s l -> cinv s'.
Proof.
  intros Ci A Ca. pose proof (indexed_step _ _ _ _ (ci_ix _ Ci) A) as Ix'. destruct (act_inv _ _ _ _ A) as [(t & B & -> & ->)|(i & t & t' & p' & Ti & St & ->)].
  - split; auto.
    + apply Ci.
    + intros id n c L C H. destruct (ci_wi _ Ci id n c L C H) as (k & W). exists k. unfold at_thread in *. cbn [sy_threads]. assert (k < length (sy_threads s))%nat by (apply nth_error_Some; destruct W as [W|[W|W]]; congruence). rewrite !nth_error_app1 by auto. auto.
    + cbn [sy_threads]. apply Forall_app. split; [exact (ci_th _ Ci)|]. constructor; [|constructor]. destruct t as [st|st|n st|n st|nb ty st|nb cb st]; destruct st; cbn in B; try discriminate; cbn; auto. right.
      apply Nat.ltb_lt in B. destruct (nth_error (p_calls (sy_phone s)) n) as [c|] eqn:E; [|apply nth_error_None in E; lia]. exists c. split; auto. split; [|intros [X|X]; discriminate X]. intros m L. exact (Ca c m E L).
  - set (s1 := mk_system p' (update (sy_threads s) i (fun _ => t'))) in *. split; auto.
    + exact (complete_own s s1 i t t' l Ci Ti St Ca).
    + exact (witnessed_own s s1 i t t' l Ci Ti St eq_refl).
    + apply Forall_forall. intros u I. apply In_nth_error in I as (k & I). unfold s1 in I. cbn [sy_threads] in I. rewrite update_nth in I. destruct (Nat.eqb i k) eqn:E.
      * apply Nat.eqb_eq in E. subst k. unfold at_thread in Ti. rewrite Ti in I. cbn in I. injection I as <-. exact (tinv_own s s1 i t t' l Ci Ti St eq_refl Ca).
      * apply (tinv_other s s1 i l (ci_ix _ Ci) (step_effect _ _ _ _ _ _ St) Ca); [eapply nth_error_In; eauto|]. eapply (proj1 (Forall_forall _ _) (ci_th _ Ci)). eapply nth_error_In; eauto.
Qed.
Lemma cinv_start s : quiet s -> sound_book (book_at s) -> complete_book (book_at s) -> cinv s.
Proof.
  intros Q [Nd Sd] Co. split.
  - split; auto. intros id n L. destruct (Sd _ _ L) as (c & C & E & _). eauto.
  - intros n c C A. exact (Co n c C A).
  - intros id n c L C A. destruct (Sd _ _ L) as (c0 & C0 & _ & A0). exfalso. unfold has_call in C. cbn in C0. congruence.
  - eapply Forall_impl; [|exact Q]. intros t (x & O). inversion O; subst; cbn; eauto.
Qed.
Lemma careful_run s ls s' : careful s ls s' -> run s ls s'.
Proof. induction 1; econstructor; eauto. Qed.
Lemma cinv_run s ls s' : cinv s -> careful s ls s' -> cinv s'.
Proof. intros C R. induction R as [|ls s1 a s2 l R IH A Ca]; auto. eapply cinv_step; eauto. Qed.
Theorem careful_complete s ls s' : quiet s -> sound_book (book_at s) -> complete_book (book_at s) -> careful s ls s' -> complete_book (book_at s').
Proof. intros Q Sd Co R. exact (ci_co _ (cinv_run _ _ _ (cinv_start _ Q Sd Co) R)). Qed.
Theorem careful_sound s ls s' : quiet s -> sound_book (book_at s) -> complete_book (book_at s) -> careful s ls s' -> quiet s' -> sound_book (book_at s').
Proof.
  intros Q Sd Co R Q'. pose proof (cinv_run _ _ _ (cinv_start _ Q Sd Co) R) as Ci. split; [apply (ci_ix _ Ci)|]. intros id n L. destruct (proj2 (ci_ix _ Ci) _ _ L) as (c & C & E). exists c. split; [exact C|]. split; auto.
  destruct (c_active c) eqn:A; auto. destruct (ci_wi _ Ci _ _ _ L C A) as (k & W). exfalso.
  assert (F : forall u, at_thread s' k u -> exists x, over u x). { intros u U. eapply (proj1 (Forall_forall _ _) Q'). eapply nth_error_In; eauto. }
  destruct W as [W|[W|W]]; destruct (F _ W) as (x & O); inversion O.
Qed.
Theorem careful_gone s ls s' i id n x : quiet s -> sound_book (book_at s) -> complete_book (book_at s) -> careful s ls s' -> (length (sy_threads s) <= i)%nat ->
  at_thread s' i (TEnd (EOver x)) -> In (LFound i id n) ls -> gone s' n.
Proof.
  intros Q Sd Co R Li T F. pose proof (cinv_run _ _ _ (cinv_start _ Q Sd Co) R) as Ci. assert (Ix : indexed s) by (apply (ci_ix _ (cinv_start _ Q Sd Co))).
  pose proof (allok_run _ _ _ Ix (careful_run _ _ _ R) i _ Li T) as H. cbn in H. destruct H as [[_ U]|(id' & n' & F' & U & (c & C & E) & G & _)]; [exfalso; eapply U; eauto|].
  destruct (U _ _ F) as [-> ->]. split; [|exact G]. exists c. split; auto. destruct (c_active c) eqn:A; auto. exfalso. apply (G (c_id c)). apply (ci_co _ Ci); auto.
Qed.
Lemma careful_cons s a s1 l : act s a = Some (s1, l) -> careful_step s l -> forall ls s2, careful s1 ls s2 -> careful s (l :: ls) s2.
Proof.
  intros A Ca ls s2 R. induction R as [|ls sa b sb m R IH B Cb].
  - apply (cf_snoc s [] s a s1 l); auto. constructor.
  - apply (cf_snoc s (l :: ls) sa b sb m); auto.
Qed.
