(** Proofs about the life of a connection. *)
From Verif Require Import Base RegexModel RegexProofs SerialModel SerialSpec SerialProofs ThreadProofs LockProofs ResponseProofs DeathProofs LifeModel LifeSpec.

Ltac life_cases H :=
  match type of H with lact _ ?a = Some _ => destruct a as [ri re|wi wn we| |] end;
  cbn [lact] in H;
  [unfold loop_step in H|unfold life_write in H|unfold close_step in H|unfold connect_step in H]; cbv zeta in H.

Lemma lrun_split s tr1 tr2 s' : lrun s (tr1 ++ tr2) s' -> exists m, lrun s tr1 m /\ lrun m tr2 s'.
Proof.
  intro R. remember (tr1 ++ tr2) as tr eqn:E. revert tr1 tr2 E.
  induction R as [s|s tr s' a l s'' R IH H]; intros tr1 tr2 E.
  - symmetry in E. apply app_eq_nil in E as [-> ->]. exists s. split; constructor.
  - destruct tr2 as [|x tr2] using rev_ind.
    + rewrite app_nil_r in E. subst tr1. exists s''. split; [econstructor; eauto|constructor].
    + clear IHtr2. rewrite app_assoc in E. apply app_inj_tail in E as [-> <-].
      destruct (IH tr1 tr2 eq_refl) as (m & R1 & R2). exists m. split; auto. econstructor; eauto.
Qed.
Lemma lrun_nil_inv s s' : lrun s [] s' -> s = s'.
Proof. intro R. remember [] as tr eqn:E. destruct R as [s|s tr s' a l s'' R H]; auto. destruct tr; discriminate. Qed.
Lemma lrun_one s a l s' : lrun s [(a, l)] s' -> lact s a = Some (s', l).
Proof.
  intro R. remember [(a, l)] as tr0 eqn:E. destruct R as [s|s tr m b k s'' R H]; [discriminate|].
  apply (app_inj_tail tr []) in E as [-> [= -> ->]]. apply lrun_nil_inv in R as <-. auto.
Qed.
Lemma lrun_cons s a l s' tr s'' : lact s a = Some (s', l) -> lrun s' tr s'' -> lrun s ((a, l) :: tr) s''.
Proof.
  intros H R. induction R as [s'|s' tr m b k s'' R IH Hm].
  - apply (lrun_snoc s [] s a l s'); [constructor|auto].
  - apply (lrun_snoc s ((a, l) :: tr) m b k s''); auto.
Qed.
Lemma lrun_cons_inv s x tr s'' : lrun s (x :: tr) s'' -> exists s', lact s (fst x) = Some (s', snd x) /\ lrun s' tr s''.
Proof.
  intro R. apply (lrun_split s [x] tr) in R as (m & R1 & R2). destruct x as [a l]. apply lrun_one in R1. eauto.
Qed.
Lemma llabels_app a b : llabels (a ++ b) = llabels a ++ llabels b.
Proof. apply map_app. Qed.
Lemma llabels_split tr a l b : llabels tr = a ++ l :: b ->
  exists tra x trb, tr = tra ++ (x, l) :: trb /\ llabels tra = a /\ llabels trb = b.
Proof.
  revert a. induction tr as [|[x k] tr IH]; intros [|m a] E; cbn in E; try discriminate.
  - injection E as -> <-. exists [], x, tr. auto.
  - injection E as -> E. destruct (IH _ E) as (tra & y & trb & -> & <- & <-). exists ((x, m) :: tra), y, trb. auto.
Qed.
(** an invariant, and what it says of the labels, from some state on *)
Lemma lrun_inv (P : life -> Prop) (Q ok : llabel -> Prop) :
  (forall s a s' l, P s -> ok l -> lact s a = Some (s', l) -> P s' /\ Q l) ->
  forall s tr s', lrun s tr s' -> P s -> (forall l, In l (llabels tr) -> ok l) -> P s' /\ Forall Q (llabels tr).
Proof.
  intros K s tr s'. induction 1 as [s|s tr s' a l s'' R IH H]; intros HP HO; [split; [auto|constructor]|].
  rewrite llabels_app in *. cbn in *. destruct IH as [P1 F]; auto. { intros k Hk. apply HO. apply in_or_app. auto. }
  destruct (K _ _ _ _ P1 (HO l ltac:(apply in_or_app; cbn; auto)) H) as [P2 Q2]. split; auto. apply Forall_app; auto.
Qed.

(** ** Steps of the parts *)
Lemma read_labels s i s' l : read_step s i = Some (s', l) -> forall j d w, l <> LSend j d w.
Proof. intros H j d w ->. unfold read_step in H. cbv zeta in H. break_step H. Qed.
Lemma write_labels s i w s' l : write_step s i w = Some (s', l) -> ~ delivers (LBase l).
Proof. intro H. unfold write_step in H. cbv zeta in H. break_step H; cbn; auto. Qed.
Lemma write_sends s i w s' l j d b : write_step s i w = Some (s', l) -> l = LSend j d b ->
  exists op, writer s i = WSend op \/ writer s i = WSendNW op.
Proof. intros H ->. unfold write_step in H. cbv zeta in H. break_step H; eauto. Qed.

Lemma life_write_shape s i w e s' l : life_write s i w e = Some (s', l) ->
  up s' = up s /\ is_open s' = is_open s /\ loop s' = loop s /\ owner s' = owner s /\ reader (base s') = reader (base s) /\
  ((exists k, l = LBase k /\ write_step (base s) i w = Some (base s', k) /\ (is_open s = false -> ~ sends (LBase k))) \/
   exists b, l = LFail i b /\ base s' = set_writer (base s) i WRel /\
     exists op, (b = true /\ writer (base s) i = WSend op) \/ (b = false /\ writer (base s) i = WSendNW op)).
Proof.
  intro H. unfold life_write in H. cbv zeta in H. destruct (writer (base s) i) as [|op|op|op|op| |ev|ok|ok|ok|op| |] eqn:W.
  11: { destruct (e || negb (is_open s)) eqn:F.
        - injection H as <- <-. cbn. repeat split. right. exists false. eauto 10.
        - destruct (write_step (base s) i w) as [[b k]|] eqn:X; [|discriminate]. injection H as <- <-. cbn. pose proof (write_reader _ _ _ _ _ X).
          repeat split; auto. left. exists k. repeat split; auto. intros O. rewrite O in F. rewrite orb_true_r in F. discriminate. }
  5: { destruct (e || negb (is_open s)) eqn:F.
        - injection H as <- <-. cbn. repeat split. right. exists true. eauto 10.
        - destruct (write_step (base s) i w) as [[b k]|] eqn:X; [|discriminate]. injection H as <- <-. cbn. pose proof (write_reader _ _ _ _ _ X).
          repeat split; auto. left. exists k. repeat split; auto. intros O. rewrite O in F. rewrite orb_true_r in F. discriminate. }
  all: destruct (write_step (base s) i w) as [[b k]|] eqn:X; [|discriminate]; injection H as <- <-; cbn; pose proof (write_reader _ _ _ _ _ X);
    repeat split; auto; left; exists k; repeat split; auto; intros _ Sd; destruct k; cbn in Sd; try contradiction;
    destruct (write_sends _ _ _ _ _ _ _ _ X eq_refl) as (op' & [Z|Z]); congruence.
Qed.

(** ** Where things stand *)
Definition placed (s : life) : Prop :=
  match loop s with
  | PTest => exists buf, reader (base s) = RIdle buf
  | PIter => forall e x, reader (base s) <> RDead e x
  | PShut | PFatal => up s = false
  | PDown | PGone => True
  end /\
  match owner s with OIdle => True | OJoin => up s = false | OClose => up s = false /\ loop s = PGone end.
Lemma placed_step s a s' l : placed s -> lact s a = Some (s', l) -> placed s'.
Proof.
  intros [A B] H. life_cases H.
  - unfold placed. destruct (loop s) eqn:L.
    + destruct A as (buf & A). break_step H; cbn; (split; [try (intros ? ?; rewrite A; discriminate); auto|]); (destruct (owner s); auto; destruct B; congruence).
    + destruct (match reader (base s) with RIdle _ | RNote2 => true | _ => false end && re) eqn:U.
      * injection H as <- <-. cbn. split; auto. destruct (owner s); auto; destruct B; congruence.
      * destruct (read_step (base s) ri) as [[b k]|] eqn:X; [|discriminate]. injection H as <- <-. cbn. split.
        -- destruct (reader b) eqn:RB; cbn; rewrite ?RB; eauto; discriminate.
        -- destruct (owner s); auto; destruct B; congruence.
    + injection H as <- <-. cbn. split; auto. destruct (owner s); auto; destruct B; congruence.
    + injection H as <- <-. cbn. split; auto. destruct (owner s); auto; destruct B; congruence.
    + injection H as <- <-. cbn. split; auto. destruct (owner s); auto; destruct B; auto.
    + discriminate.
  - fold (life_write s wi wn we) in H. apply life_write_shape in H as (E1 & E2 & E3 & E4 & E5 & _).
    unfold placed. rewrite E1, E3, E4, E5. split; auto.
  - unfold placed. break_step H; cbn in *; try rewrite E0 in A; auto; destruct (loop s); auto.
  - unfold placed. break_step H; cbn. split; eauto.
Qed.
Lemma placed_run tr s : lrun l_init tr s -> placed s.
Proof.
  intro R. remember l_init as s0 eqn:E. induction R as [s|s tr s' a l s'' R IH H]; [subst; split; cbn; eauto|].
  eapply placed_step; [apply IH; auto|exact H].
Qed.

(** ** After the port has been closed *)
Lemma closed_step s a s' l : loop s = PGone /\ is_open s = false -> l <> LConnect -> lact s a = Some (s', l) ->
  (loop s' = PGone /\ is_open s' = false) /\ (~ delivers l /\ ~ sends l /\ l <> LError /\ l <> LFatal).
Proof.
  intros [A B] N H. life_cases H.
  - rewrite A in H. discriminate.
  - fold (life_write s wi wn we) in H. apply life_write_shape in H as (_ & E2 & E3 & _ & _ & K). rewrite E2, E3. split; auto.
    destruct K as [(k & -> & X & Sd)|(b & -> & _)]; [|cbn; repeat split; auto; discriminate].
    repeat split; auto; try discriminate. eapply write_labels; eauto.
  - rewrite A in H. break_step H; cbn; repeat split; auto; discriminate.
  - rewrite A in H. break_step H; congruence.
Qed.
Lemma after_closed tr s a b : lrun l_init tr s -> llabels tr = a ++ LClosed :: b -> ~ In LConnect b ->
  Forall (fun l => ~ delivers l /\ ~ sends l /\ l <> LError /\ l <> LFatal) b.
Proof.
  intros R E N. apply llabels_split in E as (ta & x & tb & -> & <- & <-).
  apply lrun_split in R as (m & R1 & R2). apply lrun_cons_inv in R2 as (m' & H & R2). cbn in H.
  assert (C : loop m' = PGone /\ is_open m' = false).
  { apply placed_run in R1 as [_ B]. life_cases H.
    - break_step H.
    - fold (life_write m wi wn we) in H. apply life_write_shape in H as (_ & _ & _ & _ & _ & [(k & K & _)|(b & K & _)]); discriminate.
    - destruct (owner m) eqn:O; try discriminate; [break_step H|]. injection H as <-. cbn. tauto.
    - break_step H. }
  eapply (lrun_inv (fun s => loop s = PGone /\ is_open s = false)); [exact closed_step|exact R2|exact C|].
  intros l Hl ->. exact (N Hl).
Qed.

(** ** After an error of the port *)
Definition broken (s : life) : Prop := match loop s with PDown | PShut | PFatal | PGone => True | _ => False end.
Lemma broken_step s a s' l : broken s -> l <> LConnect -> lact s a = Some (s', l) -> broken s' /\ ~ delivers l.
Proof.
  intros A N H. unfold broken in *. life_cases H.
  - destruct (loop s) eqn:L; try contradiction; try discriminate; injection H as <- <-; cbn; auto.
  - fold (life_write s wi wn we) in H. apply life_write_shape in H as (_ & _ & E3 & _ & _ & K). rewrite E3. split; auto.
    destruct K as [(k & -> & X & _)|(b & -> & _)]; [eapply write_labels; eauto|cbn; auto].
  - break_step H; cbn; rewrite ?E0 in *; auto.
  - break_step H; congruence.
Qed.
Lemma after_error tr s a b : lrun l_init tr s -> llabels tr = a ++ LError :: b -> ~ In LConnect b -> Forall (fun l => ~ delivers l) b.
Proof.
  intros R E N. apply llabels_split in E as (ta & x & tb & -> & <- & <-).
  apply lrun_split in R as (m & R1 & R2). apply lrun_cons_inv in R2 as (m' & H & R2). cbn in H.
  assert (C : broken m').
  { life_cases H.
    - destruct (loop m); try (break_step H; fail).
      destruct (match reader (base m) with RIdle _ | RNote2 => true | _ => false end && re); [injection H as <-; exact Logic.I|break_step H].
    - fold (life_write m wi wn we) in H. apply life_write_shape in H as (_ & _ & _ & _ & _ & [(k & K & _)|(b & K & _)]); discriminate.
    - break_step H.
    - break_step H. }
  eapply (lrun_inv broken); [exact broken_step|exact R2|exact C|]. intros l Hl ->. exact (N Hl).
Qed.
Lemma after_fatal tr s a b : lrun l_init tr s -> llabels tr = a ++ LFatal :: b -> ~ In LConnect b ->
  Forall (fun l => ~ delivers l /\ ~ sends l /\ l <> LError /\ l <> LFatal) b.
Proof.
  intros R E N. apply llabels_split in E as (ta & x & tb & -> & <- & <-).
  apply lrun_split in R as (m & R1 & R2). apply lrun_cons_inv in R2 as (m' & H & R2). cbn in H.
  assert (O : loop m = PFatal -> is_open m = false).
  { clear H R2. remember l_init as s0 eqn:E0. clear N. induction R1 as [s1|s1 tr s2 a l s3 R IH H]; [subst; discriminate|]. specialize (IH E0). subst.
    pose proof (placed_run _ _ R) as [_ PO].
    intro L. life_cases H.
    - destruct (loop s2) eqn:L2; try (break_step H; cbn in L; discriminate L).
      injection H as <- <-. reflexivity.
    - fold (life_write s2 wi wn we) in H. apply life_write_shape in H as (_ & E2 & E3 & _). rewrite E2. rewrite E3 in L. auto.
    - break_step H; cbn in *; auto; congruence.
    - break_step H; cbn in L; discriminate L. }
  assert (C : loop m' = PGone /\ is_open m' = false).
  { life_cases H.
    - destruct (loop m) eqn:L; try discriminate H.
      + destruct (up m); discriminate H.
      + destruct (_ && re) in H; [discriminate H|]. destruct (read_step (base m) ri) as [[? ?]|]; discriminate H.
      + injection H as <-; cbn; auto.
    - fold (life_write m wi wn we) in H. apply life_write_shape in H as (_ & _ & _ & _ & _ & [(k & K & _)|(b & K & _)]); discriminate.
    - break_step H.
    - break_step H. }
  eapply (lrun_inv (fun s => loop s = PGone /\ is_open s = false)); [exact closed_step|exact R2|exact C|].
  intros l Hl ->. exact (N Hl).
Qed.
Lemma fatal_once tr s : lrun l_init tr s -> errors (llabels tr) = (fatals (llabels tr) + match loop s with PDown | PShut | PFatal => 1 | _ => 0 end)%nat.
Proof.
  intro R. remember l_init as s0 eqn:E. induction R as [s|s tr s' a l s'' R IH H]; [subst; reflexivity|]. specialize (IH E). subst.
  rewrite llabels_app. unfold errors, fatals in *. rewrite !filter_app, !app_length, IH. cbn [llabels map snd]. life_cases H.
  - destruct (loop s').
    + break_step H; cbn; lia.
    + destruct (match reader (base s') with RIdle _ | RNote2 => true | _ => false end && re); [injection H as <- <-; cbn; lia|].
      destruct (read_step (base s') ri) as [[b k]|]; [|discriminate]. injection H as <- <-. cbn. destruct (reader b); lia.
    + break_step H; cbn; lia.
    + break_step H; cbn; lia.
    + break_step H; cbn; lia.
    + break_step H; cbn; lia.
  - fold (life_write s' wi wn we) in H. apply life_write_shape in H as (_ & _ & -> & _ & _ & [(k & -> & _)|(b & -> & _)]); cbn; lia.
  - break_step H; cbn; try rewrite E0; lia.
  - break_step H; cbn; lia.
Qed.

(** ** The read thread ends *)
Definition rrank (r : rpc) : nat :=
  match r with
  | RDead _ _ => 0 | RNote2 | RSet _ _ => 4 | RNote _ | RTerm _ _ => 5 | RApp _ _ _ => 6 | RResp _ _ => 7 | RIsSet _ _ => 8
  | RHave _ _ => 9 | RExp3 _ _ => 10 | RExp2 _ => 11 | RExp1 _ => 12 | RIdle _ => 13
  end.
Definition rank (s : life) : nat :=
  match loop s with
  | PGone => 0 | PTest | PFatal => 1 | PShut => 2 | PDown => 3 | PIter => rrank (reader (base s))
  end.
Lemma rank_le s : (rank s <= 13)%nat.
Proof. unfold rank, rrank. destruct (loop s); try lia. destruct (reader (base s)); lia. Qed.
Lemma rrank_read b i b' l : read_step b i = Some (b', l) ->
  (3 < rrank (reader b))%nat /\ ((exists buf, reader b' = RIdle buf) \/ (rrank (reader b') < rrank (reader b))%nat).
Proof.
  intro H. unfold read_step in H. cbv zeta in H. break_step H; cbn; rewrite ?E; cbn; (split; [lia|]); eauto; try (right; lia).
Qed.
Lemma rank_read s i e s' l : placed s -> up s = false -> loop_step s i e = Some (s', l) -> (rank s' < rank s)%nat /\ up s' = false.
Proof.
  intros [A _] U H. unfold loop_step in H. cbv zeta in H. unfold rank. destruct (loop s) eqn:L; try discriminate H; try (injection H as <- <-; cbn; split; auto; lia).
  - rewrite U in H. injection H as <- <-. cbn. split; auto.
  - destruct (match reader (base s) with RIdle _ | RNote2 => true | _ => false end && e) eqn:UE.
    + injection H as <- <-. cbn. split; auto. destruct (reader (base s)); try discriminate UE; cbn; lia.
    + destruct (read_step (base s) i) as [[b k]|] eqn:X; [|discriminate]. injection H as <- <-. cbn. split; auto.
      apply rrank_read in X as [X1 [(buf & ->)|X2]]; [lia|]. destruct (reader b) eqn:RB; cbn in *; rewrite ?RB; cbn; lia.
Qed.
Lemma rank_other s a s' l : (forall i e, a <> DRead i e) -> l <> LConnect -> lact s a = Some (s', l) -> up s = false -> rank s' = rank s /\ up s' = false.
Proof.
  intros NA N H U. destruct a as [ri re|wi wn we| |]; [destruct (NA ri re eq_refl)| | |]; cbn [lact] in H.
  - apply life_write_shape in H as (E1 & _ & E3 & _ & E5 & _). unfold rank. rewrite E1, E3, E5. auto.
  - unfold close_step in H. break_step H; unfold rank; cbn; auto. rewrite E0. auto.
  - unfold connect_step in H. break_step H. congruence.
Qed.
Lemma reader_ends tr0 s tr s' : lrun l_init tr0 s -> up s = false -> lrun s tr s' -> ~ In LConnect (llabels tr) ->
  (length (filter reader_moves tr) <= 13)%nat /\ (loop s' = PGone \/ forall i e, lact s' (DRead i e) <> None).
Proof.
  intros R0 U R N. split.
  - enough (K : (length (filter reader_moves tr) + rank s' <= rank s)%nat /\ up s' = false) by (pose proof (rank_le s); lia).
    apply placed_run in R0. induction R as [s|s tr s' a l s'' R IH H]; [cbn; split; [lia|auto]|].
    assert (PL : placed s'). { clear - R R0. induction R as [s|s tr s1 a l s2 R IH H]; auto. eapply placed_step; [apply IH; auto|exact H]. }
    rewrite llabels_app in N. cbn in N. destruct (IH R0 U) as [IH1 U']. { intro K. apply N, in_or_app. auto. } clear IH.
    rewrite filter_app, app_length. cbn. destruct a as [ri re|wi wn we| |]; cbn [reader_moves fst].
    + cbn [lact] in H. destruct (rank_read _ _ _ _ _ PL U' H). cbn. split; [lia|auto].
    + apply rank_other in H as [-> ->]; auto; [cbn; split; [lia|auto]|discriminate|intros ->; apply N, in_or_app; cbn; auto].
    + apply rank_other in H as [-> ->]; auto; [cbn; split; [lia|auto]|discriminate|intros ->; apply N, in_or_app; cbn; auto].
    + apply rank_other in H as [-> ->]; auto; [cbn; split; [lia|auto]|discriminate|intros ->; apply N, in_or_app; cbn; auto].
  - assert (PL : placed s'). { apply placed_run in R0. clear - R R0. induction R as [s|s tr s1 a l s2 R IH H]; auto. eapply placed_step; [apply IH; auto|exact H]. }
    destruct PL as [A _]. cbn [lact]. unfold loop_step. cbv zeta. destruct (loop s') eqn:L; auto; right; intros i e; try discriminate.
    + destruct (up s'); discriminate.
    + destruct (_ && e); [discriminate|]. destruct (read_step (base s') i) as [[b k]|] eqn:X; [discriminate|].
      exfalso. unfold read_step in X. cbv zeta in X.
      destruct (reader (base s')) eqn:RB; repeat match type of X with context [match ?x with _ => _ end] => destruct x; try discriminate X end; try discriminate X.
      eapply A. reflexivity.
Qed.
Lemma close_returns tr0 s : lrun l_init tr0 s -> owner s = OJoin -> loop s = PGone ->
  exists s1 s2, lact s DClose = Some (s1, LStep) /\ lact s1 DClose = Some (s2, LClosed).
Proof. intros _ O L. eexists _, _. cbn. unfold close_step. rewrite O, L. split; reflexivity. Qed.

(** ** SerialModel's executions *)
Lemma erase_app a b : erase (a ++ b) = erase a ++ erase b.
Proof. induction a as [|[[i e|i w e| |] l] a IH]; cbn; auto; destruct l; cbn; rewrite IH; auto. Qed.
Lemma erase_run tr s : lrun l_init tr s -> (forall i b, ~ In (LFail i b) (llabels tr)) -> ~ In LConnect (llabels tr) -> run s_init (erase tr) (base s).
Proof.
  intros R NF NC. remember l_init as s0 eqn:E. induction R as [s|s tr s' a l s'' R IH H]; [subst; constructor|].
  rewrite llabels_app in *. cbn in NF, NC.
  assert (IH' : run s_init (erase tr) (base s')).
  { apply IH; auto; [intros i b K|intro K]; [apply (NF i b)|apply NC]; apply in_or_app; auto. }
  clear IH. rewrite erase_app. assert (NC' : l <> LConnect) by (intros ->; apply NC, in_or_app; cbn; auto).
  assert (NF' : forall i b, l <> LFail i b) by (intros i b ->; apply (NF i b), in_or_app; cbn; auto). clear NF NC.
  life_cases H.
  - destruct (loop s') eqn:L; try (break_step H; cbn; rewrite app_nil_r; exact IH').
    destruct (_ && re) in H; [injection H as <- <-; cbn; rewrite app_nil_r; exact IH'|].
    destruct (read_step (base s') ri) as [[b k]|] eqn:X; [|discriminate]. injection H as <- <-. cbn. econstructor; [exact IH'|]. exact X.
  - fold (life_write s' wi wn we) in H. apply life_write_shape in H as (_ & _ & _ & _ & _ & [(k & -> & X & _)|(b & -> & _)]); [|congruence].
    cbn. econstructor; [exact IH'|exact X].
  - break_step H; cbn; rewrite app_nil_r; exact IH'.
  - break_step H; congruence.
Qed.
Lemma erase_labels tr s : lrun l_init tr s -> labels (erase tr) = base_labels (llabels tr).
Proof.
  intro R. remember l_init as s0 eqn:E. induction R as [s|s tr s' a l s'' R IH H]; [reflexivity|]. specialize (IH E).
  rewrite erase_app, labels_app, IH, llabels_app. unfold base_labels. rewrite flat_map_app. f_equal. cbn [llabels map snd flat_map].
  destruct a as [ri re|wi wn we| |], l; cbn; try reflexivity; cbn [lact] in H; exfalso.
  - unfold close_step in H. break_step H.
  - unfold connect_step in H. break_step H.
Qed.

(** ** What is left over *)
Lemma base_snoc tr l : base_labels (tr ++ [l]) = base_labels tr ++ match l with LBase x => [x] | _ => [] end.
Proof. unfold base_labels. rewrite flat_map_app. cbn. rewrite app_nil_r. reflexivity. Qed.
Lemma write_notif s i w s' l : write_step s i w = Some (s', l) -> notif s' = notif s /\ (forall ls, l <> LCallback ls) /\ forall x, l <> LNotify x.
Proof. intro H. unfold write_step in H. cbv zeta in H. break_step H; cbn; repeat split; try discriminate; auto. Qed.
Lemma notifications_kept tr s : lrun l_init tr s ->
  List.concat (callbacks_of (base_labels (llabels tr))) ++ notif (base s) = notified_of (base_labels (llabels tr)).
Proof.
  intro R. remember l_init as s0 eqn:E. induction R as [s|s tr s' a l s'' R IH H]; [subst; reflexivity|]. specialize (IH E). subst. clear R.
  rewrite llabels_app. cbn [llabels map snd]. fold (llabels tr). rewrite base_snoc.
  assert (T : notif (base s'') = notif (base s') -> match l with LBase k => (forall ls, k <> LCallback ls) /\ (forall x, k <> LNotify x) | _ => True end ->
     List.concat (callbacks_of (base_labels (llabels tr) ++ match l with LBase x => [x] | _ => [] end)) ++ notif (base s'') =
     notified_of (base_labels (llabels tr) ++ match l with LBase x => [x] | _ => [] end)).
  { intros -> K. destruct l; rewrite ?app_nil_r; auto. rewrite callbacks_of_snoc, notified_of_snoc. destruct K as [K1 K2].
    destruct l; rewrite ?app_nil_r; auto; [destruct (K2 line eq_refl)|destruct (K1 lines eq_refl)]. }
  life_cases H.
  - destruct (loop s'); try (break_step H; apply T; cbn; auto; fail).
    destruct (_ && re) in H; [injection H as <- <-; apply T; cbn; auto|].
    destruct (read_step (base s') ri) as [[b k]|] eqn:X; [|discriminate]. injection H as <- <-. cbn [base] in *.
    unfold read_step in X. cbv zeta in X. break_step X; try (apply T; cbn; [reflexivity|split; discriminate]);
      rewrite callbacks_of_snoc, notified_of_snoc, <- IH, concat_app; cbn; rewrite ?app_nil_r, <- ?app_assoc; reflexivity.
  - fold (life_write s' wi wn we) in H. apply life_write_shape in H as (_ & _ & _ & _ & _ & [(k & -> & X & _)|(b & -> & X & _)]).
    + apply write_notif in X as (X1 & X2). apply T; auto.
    + apply T; auto. rewrite X. reflexivity.
  - break_step H; apply T; cbn; auto.
  - break_step H; apply T; cbn; auto.
Qed.

(** writes in progress, and a prompt waited for *)
Definition mid_pc (w : wpc) : bool := match w with WIdle | WCheck _ | WRet _ | WSendNW _ | WRel => false | _ => true end.
Definition prompt_ok (s : sstate) : Prop := (forall i, mid_pc (writer s i) = false) -> expect s = None.
Lemma prompt_write s i w s' l : prompt_ok s -> write_step s i w = Some (s', l) -> prompt_ok s'.
Proof.
  intros P H. assert (Q : forall p, mid_pc p = false -> (forall j, mid_pc (upd (writer s) i p j) = false) -> mid_pc (writer s i) = false -> forall j, mid_pc (writer s j) = false).
  { intros p _ K1 K2 j. destruct (Nat.eq_dec j i) as [->|D]; auto. specialize (K1 j). rewrite upd_other in K1; auto. }
  unfold write_step in H. cbv zeta in H. unfold prompt_ok in *.
  break_step H; cbn; intro K; try reflexivity; try (specialize (K i); rewrite upd_same in K; cbn in K; discriminate);
    apply P; (eapply Q; [|exact K|]); try reflexivity; rewrite ?E; reflexivity.
Qed.
Definition sound (s : life) : Prop := locked (base s) /\ prompt_ok (base s).
Lemma sound_step s a s' l : sound s -> (forall i b, l <> LFail i b) -> lact s a = Some (s', l) -> sound s' /\ True.
Proof.
  intros [A B] N H. split; auto. life_cases H.
  - assert (T : base s' = base s -> sound s') by (intro T; unfold sound; rewrite T; split; auto).
    destruct (loop s); try (break_step H; apply T; reflexivity).
    destruct (_ && re) in H; [injection H as <- <-; apply T; reflexivity|].
    destruct (read_step (base s) ri) as [[b k]|] eqn:X; [|discriminate]. injection H as <- <-. split; cbn.
    + eapply locked_step; [exact A|exact (X : act (base s) (ARead ri) = _)].
    + apply locked_read in X as (_ & _ & _ & _ & W & EX); auto. unfold prompt_ok in *. rewrite W, EX. auto.
  - fold (life_write s wi wn we) in H. apply life_write_shape in H as (_ & _ & _ & _ & _ & [(k & -> & X & _)|(b & -> & X & _)]); [|destruct (N wi b eq_refl)].
    split; [eapply locked_step; [exact A|exact (X : act (base s) (AWrite wi wn) = _)]|eapply prompt_write; eauto].
  - break_step H; split; auto.
  - break_step H; split; auto.
Qed.
Lemma connect_clean tr s s' : lrun l_init tr s -> (forall i b, ~ In (LFail i b) (llabels tr)) -> lact s DConnect = Some (s', LConnect) ->
  (forall i, writer (base s) i = WIdle) -> notif (base s) = [] -> like_new s'.
Proof.
  intros R N H W NT.
  assert (SD : sound s).
  { refine (proj1 (lrun_inv sound (fun _ => True) (fun l => forall i b, l <> LFail i b) sound_step _ _ _ R _ _)).
    - split; [exact locked_init|intro; reflexivity].
    - intros l Hl i b ->. exact (N _ _ Hl). }
  destruct SD as [LK PR]. cbn [lact] in H. unfold connect_step in H. destruct (owner s); try discriminate H. destruct (loop s); try discriminate H. injection H as <-. unfold like_new. cbn.
  assert (LO : lock (base s) = None /\ evt (base s) = None).
  { unfold locked in LK. destruct (lock (base s)) as [k|]; [|tauto]. destruct LK as [P _]. rewrite W in P. destruct P. }
  destruct LO as [L1 L2]. repeat split; auto. apply PR. intro i. rewrite W. reflexivity.
Qed.

(** ** A write that failed *)
Definition excl (s : sstate) : Prop :=
  match lock s with None => forall j, writer s j = WIdle | Some i => forall j, j <> i -> writer s j = WIdle end.
Lemma excl_owner s i : excl s -> writer s i <> WIdle -> lock s = Some i.
Proof. unfold excl. intros X N. destruct (lock s) as [k|]; [|congruence]. destruct (Nat.eq_dec i k); [congruence|]. destruct (N (X _ n)). Qed.
Lemma excl_write s i w s' l : excl s -> write_step s i w = Some (s', l) -> excl s'.
Proof.
  intros X H. unfold write_step in H. cbv zeta in H. destruct (writer s i) as [|op|op|op|op| |ev|ok|ok|ok|op| |] eqn:W.
  { unfold excl in *. destruct (lock s); [discriminate|]. injection H as <- <-. cbn. intros j D. rewrite upd_other; auto. }
  all: pose proof (excl_owner s i X ltac:(rewrite W; discriminate)) as HO; unfold excl in X; rewrite HO in X; unfold excl;
    break_step H; cbn; rewrite ?HO; try (intros j D; rewrite upd_other; auto; fail).
  intro j. destruct (Nat.eq_dec j i) as [->|D]; [apply upd_same|]. rewrite upd_other; auto.
Qed.
Lemma excl_run tr s : lrun l_init tr s -> excl (base s).
Proof.
  intro R. remember l_init as s0 eqn:E. induction R as [s|s tr s' a l s'' R IH H]; [subst; intro; reflexivity|]. specialize (IH E). subst.
  assert (T : lock (base s'') = lock (base s') -> writer (base s'') = writer (base s') -> excl (base s'')) by (unfold excl; intros -> ->; exact IH).
  life_cases H.
  - destruct (loop s'); try (break_step H; apply T; reflexivity).
    destruct (_ && re) in H; [injection H as <- <-; apply T; reflexivity|].
    destruct (read_step (base s') ri) as [[b k]|] eqn:X; [|discriminate]. injection H as <- <-. cbn [base] in *.
    unfold read_step in X. cbv zeta in X. break_step X; apply T; reflexivity.
  - fold (life_write s' wi wn we) in H. apply life_write_shape in H as (_ & _ & _ & _ & _ & [(k & -> & X & _)|(b & -> & X & op & Y)]).
    + eapply excl_write; eauto.
    + rewrite X. assert (HO : lock (base s') = Some wi) by (apply excl_owner; [exact IH|destruct Y as [[_ Y]|[_ Y]]; rewrite Y; discriminate]).
      unfold excl in *. cbn. rewrite HO in IH |- *.
      intros j D. rewrite upd_other; auto.
  - break_step H; apply T; reflexivity.
  - break_step H; apply T; reflexivity.
Qed.

Definition before_event (w : wpc) : bool := match w with WIdle | WCheck _ | WSetResp _ | WSetEvt _ | WSendNW _ | WRel => true | _ => false end.
Definition swallowing (s : life) : Prop :=
  (exists e, evt (base s) = Some e /\ is_set (base s) e = false) /\
  (forall j, before_event (writer (base s) j) = true) /\
  match loop s with PTest | PIter =>
    match reader (base s) with
    | RIsSet l c | RResp l c | RApp l c _ | RTerm l c => ~ ends_response (l, c)
    | RSet _ _ | RNote _ | RNote2 => False
    | _ => True
    end
  | _ => True
  end.
Lemma swallow_step s a s' l : swallowing s -> no_end l -> lact s a = Some (s', l) ->
  swallowing s' /\ (forall x, l <> LBase (LNotify x)) /\ (forall x, l <> LBase (LCallback x)).
Proof.
  intros ((e & E & NS) & W & RD) N H. life_cases H.
  - destruct (loop s) eqn:L; try (break_step H; (split; [unfold swallowing; cbn; repeat split; eauto|split; discriminate])).
    destruct (_ && re) in H; [injection H as <- <-; (split; [unfold swallowing; cbn; repeat split; eauto|split; discriminate])|].
    destruct (read_step (base s) ri) as [[b k]|] eqn:X; [|discriminate]. injection H as <- <-. unfold swallowing. cbn [base loop] in *.
    unfold read_step in X. cbv zeta in X. rewrite E in X.
    destruct (reader (base s)) eqn:RB; try contradiction; rewrite ?NS in X;
      break_step X; cbn; repeat split; try discriminate; eauto;
      try (destruct (firstn _ _); exact Logic.I); try (cbn in N; exact N); try (rewrite RB; exact Logic.I).
    all: try (apply RD, term_ends; auto; fail).
  - fold (life_write s wi wn we) in H. apply life_write_shape in H as (_ & _ & E3 & _ & E5 & [(k & -> & X & _)|(b & -> & X & op & Y)]).
    + unfold swallowing. rewrite E3, E5. destruct (write_notif _ _ _ _ _ X) as (_ & NN1 & NN2). split; [|split; congruence].
      pose proof (W wi) as Wi. unfold write_step in X. cbv zeta in X.
      destruct (writer (base s) wi) eqn:WB; try discriminate Wi;
      repeat match type of X with context [match ?x with _ => _ end] => destruct x; try discriminate X end;
      try (injection X as Xb Xl); rewrite <- ?Xb; try (subst k; destruct N; fail);
      cbn; repeat split; eauto; intro j; (destruct (Nat.eq_dec j wi) as [->|D]; [rewrite upd_same; reflexivity|rewrite upd_other; auto]).
    + unfold swallowing. rewrite E3, E5, X. split; [|split; discriminate]. cbn. repeat split; eauto.
      intro j. destruct (Nat.eq_dec j wi) as [->|D]; [rewrite upd_same; reflexivity|rewrite upd_other; auto].
  - break_step H; (split; [unfold swallowing; repeat split; eauto|split; discriminate]).
  - break_step H; (split; [unfold swallowing; cbn; repeat split; eauto|split; discriminate]).
Qed.
Lemma failed_write tr i a1 a2 s tr2 s' : lrun l_init (tr ++ [(a1, LBase (LStart i)); (a2, LFail i true)]) s -> loop s <> PIter -> lrun s tr2 s' ->
  (forall l, In l (llabels tr2) -> no_end l) -> Forall (fun l => (forall x, l <> LBase (LNotify x)) /\ forall x, l <> LBase (LCallback x)) (llabels tr2).
Proof.
  intros R L R2 N. assert (PL := placed_run _ _ R). pose proof (excl_run _ _ R) as EX0.
  apply lrun_split in R as (m & R & R1). apply lrun_cons_inv in R1 as (m1 & H1 & R1). apply lrun_cons_inv in R1 as (m2 & H2 & R1).
  apply lrun_nil_inv in R1 as <-. cbn [fst snd] in *.
  assert (EX : excl (base m1)). { eapply (excl_run (tr ++ [(a1, LBase (LStart i))])). econstructor; [exact R|exact H1]. }
  refine (proj2 (lrun_inv swallowing (fun l => (forall x, l <> LBase (LNotify x)) /\ forall x, l <> LBase (LCallback x)) no_end swallow_step _ _ _ R2 _ N)).
  assert (E1 : exists e, evt (base m1) = Some e /\ is_set (base m1) e = false).
  { clear - H1. destruct a1 as [ri re|wi wn we| |]; cbn [lact] in H1.
    - exfalso. unfold loop_step in H1. cbv zeta in H1. destruct (loop m); try discriminate H1; [destruct (up m); discriminate H1|].
      destruct (_ && re) in H1; [discriminate H1|]. destruct (read_step (base m) ri) as [[b k]|] eqn:X; [|discriminate H1].
      injection H1 as _ ->. unfold read_step in X. cbv zeta in X.
      repeat match type of X with context [match ?x with _ => _ end] => destruct x; try discriminate X end; discriminate X.
    - apply life_write_shape in H1 as (_ & _ & _ & _ & _ & [(k & K & X & _)|(b & K & _)]); [|discriminate]. injection K as <-.
      unfold write_step in X. cbv zeta in X.
      destruct (writer (base m) wi);
      repeat match type of X with context [match ?x with _ => _ end] => destruct x; try discriminate X end; try discriminate X.
      injection X as X Xl. exists (fresh (base m)). rewrite <- X. cbn. rewrite upd_same. auto.
    - unfold close_step in H1. destruct (owner m); try discriminate H1. destruct (loop m); discriminate H1.
    - unfold connect_step in H1. destruct (owner m); try discriminate H1. destruct (loop m); discriminate H1. }
  destruct a2 as [ri re|wi wn we| |]; cbn [lact] in H2.
  - exfalso. unfold loop_step in H2. cbv zeta in H2. destruct (loop m1); try discriminate H2; [destruct (up m1); discriminate H2|].
    destruct (_ && re) in H2; [discriminate H2|]. destruct (read_step (base m1) ri) as [[b k]|] eqn:X; discriminate H2.
  - apply life_write_shape in H2 as (_ & _ & _ & _ & E5 & [(k & K & X & _)|(b & K & X & op & Y)]); [discriminate|]. injection K as <- <-.
    destruct Y as [[_ Y]|[Y _]]; [|discriminate]. unfold swallowing. rewrite X in *. cbn. split; [exact E1|]. split.
    + intro j. destruct (Nat.eq_dec j i) as [->|D]; [rewrite upd_same; reflexivity|]. rewrite upd_other; auto.
      assert (HO : lock (base m1) = Some i) by (apply excl_owner; [exact EX|rewrite Y; discriminate]).
      unfold excl in EX. rewrite HO in EX. rewrite (EX _ D). reflexivity.
    + destruct PL as [PL _]. destruct (loop m2); auto; [|congruence]. destruct PL as (buf & PL). cbn in PL. rewrite X in PL. cbn in PL. rewrite PL. exact Logic.I.
  - unfold close_step in H2. destruct (owner m1); try discriminate H2. destruct (loop m1); discriminate H2.
  - unfold connect_step in H2. destruct (owner m1); try discriminate H2. destruct (loop m1); discriminate H2.
Qed.

(** ** Examples *)
Fixpoint lexec (s : life) (as_ : list laction) : option (list (laction * llabel) * life) :=
  match as_ with
  | [] => Some ([], s)
  | a :: r => match lact s a with
              | Some (s', l) => match lexec s' r with Some (tr, s'') => Some ((a, l) :: tr, s'') | None => None end
              | None => None
              end
  end.
Lemma lexec_run as_ : forall s tr s', lexec s as_ = Some (tr, s') -> lrun s tr s'.
Proof.
  induction as_ as [|a r IH]; cbn; intros s tr s' H; [injection H as <- <-; constructor|].
  destruct (lact s a) as [[m l]|] eqn:A; [|discriminate]. destruct (lexec m r) as [[t f]|] eqn:X; [|discriminate].
  injection H as <- <-. eapply lrun_cons; eauto.
Qed.
(** the read thread: [n] steps with nothing to read, and the text [t], all of it
    waiting, each character with [n] steps after it *)
Definition rt : laction := DRead (mk_rin None true) false.
Definition lfeed (t : str) : list laction := flat_map (fun c => [rt; DRead (mk_rin (Some c) false) false; rt]) t.
Definition tosend (d : str) : win := mk_win (mk_wop d true None) false.
Definition shown (l : llabel) : bool := match l with LBase LTau | LBase (LChar _) | LStep => false | _ => true end.
Definition lline (t : str) (more : bool) : list laction :=
  lfeed (t ++ [13]) ++ [rt; DRead (mk_rin (Some 10) false) false] ++ repeat (DRead (mk_rin None (negb more)) false) 3.
Definition life_shown (as_ : list laction) : option (list llabel) :=
  match lexec l_init as_ with Some (tr, _) => Some (filter shown (llabels tr)) | None => None end.
(** RING with more to come, close(), connect(), another line *)
Definition sch_reconnect : list laction := lline (lit "RING") true ++ [DClose; rt; DClose; DClose; DConnect] ++ lline (lit "+CREG: 1") false.
(** a write that fails since the port has been closed, connect(), RING *)
Definition sch_failed : list laction :=
  [DClose; rt; DClose; DClose] ++ repeat (DWrite 0 (tosend (lit "AT")) false) 6 ++ [DConnect] ++
  lline (lit "RING") false ++ [rt; rt].
