(** When the read thread dies, and what follows. *)
From Verif Require Import Base RegexModel RegexProofs SerialModel SerialSpec SerialProofs ThreadProofs LockProofs.

(** ** No writer moves while a line is being handled *)
Definition rsafe (s : sstate) : Prop :=
  match reader s with
  | RIdle _ | RExp1 _ | RHave _ _ | RNote _ | RNote2 => True
  | RExp2 _ | RExp3 _ _ => expect s <> None
  | RIsSet _ _ | RResp _ _ | RApp _ _ _ | RTerm _ _ | RSet _ _ => evt s <> None
  | RDead _ _ => False
  end.
Lemma safe_if_atomic tr s : run s_init tr s -> handled_atomically tr -> rsafe s.
Proof.
  intro R. remember s_init as s0 eqn:E0. induction R as [s|s tr s' a l s'' R IH H]; subst; [intros; exact I|]. intro AT.
  assert (AT' : handled_atomically tr).
  { intros tr1 i w k tr2 m E Rm. apply (AT tr1 i w k (tr2 ++ [(a, l)]) m); auto. rewrite E, <- app_assoc. reflexivity. }
  specialize (IH eq_refl AT'). destruct a as [ri|i w]; cbn [act] in H.
  - pose proof (run_locked _ _ R) as L. unfold rsafe in IH.
    assert (EV : evt s' <> None -> resp s' <> None).
    { intro N. unfold locked in L. destruct (lock s') as [k|]; [|destruct L; congruence]. destruct L as [P _].
      destruct (writer s' k); cbn in P; try contradiction; try congruence; try (destruct P; congruence).
      - destruct P as (e1 & r & _ & -> & _). discriminate.
      - destruct P as (e1 & r & _ & -> & _). discriminate.
      - destruct P as (r & _ & -> & _). discriminate.
      - destruct P as (e1 & r & _ & -> & _). discriminate. }
    unfold read_step in H. cbv zeta in H. destruct (reader s') eqn:ER; break_step H; unfold rsafe; cbn; rewrite ?ER; auto; try congruence.
    exfalso. apply EV; auto.
  - assert (exists b, reader s' = RIdle b) as [b Eb] by (apply (AT tr i w l [] s'); auto).
    assert (reader s'' = reader s') as Er by (unfold write_step in H; cbv zeta in H; break_step H; reflexivity).
    unfold rsafe. rewrite Er, Eb. exact I.
Qed.

(** ** After its death *)
Definition is_dead (s : sstate) : Prop := exists e x, reader s = RDead e x.
Lemma write_reader s i w s' l : write_step s i w = Some (s', l) -> reader s' = reader s.
Proof. intro H. unfold write_step in H; cbv zeta in H; break_step H; reflexivity. Qed.
Lemma dead_read s i : is_dead s -> read_step s i = None.
Proof. intros (e & x & E). unfold read_step. rewrite E. reflexivity. Qed.
Definition by_reader (l : label) : Prop :=
  match l with LChar _ | LLine _ _ | LAppend _ _ | LNotify _ | LCallback _ | LDied _ => True | _ => False end.
Lemma write_not_reader s i w s' l : write_step s i w = Some (s', l) -> ~ by_reader l.
Proof. intro H. unfold write_step in H; cbv zeta in H; break_step H; exact (fun x => x). Qed.
Lemma dead_stays s tr s' : run s tr s' -> is_dead s -> reader s' = reader s /\ Forall (fun l => ~ by_reader l) (labels tr).
Proof.
  intros R D. induction R as [s|s tr s' a l s'' R IH H]; [split; auto; constructor|]. destruct (IH D) as [E F].
  assert (D' : is_dead s') by (destruct D as (e & x & D); exists e, x; congruence). rewrite labels_app.
  destruct a as [ri|i w]; cbn [act] in H; [rewrite (dead_read _ _ D') in H; discriminate|].
  rewrite (write_reader _ _ _ _ _ H). split; auto. apply Forall_app. split; auto. constructor; auto. eapply write_not_reader; eauto.
Qed.

(** the lock owner, if it waits at all, waits for an event that nobody sets *)
Definition hopeless (s : sstate) : Prop :=
  match lock s with
  | None => True
  | Some i =>
    match writer s i with
    | WSend _ | WLoad | WWait _ => exists e, evt s = Some e /\ is_set s e = false
    | WClrEvt ok | WClrExp ok | WRet ok => ok = false
    | _ => True
    end
  end.
Lemma hopeless_step s i w s' l : locked s -> hopeless s -> write_step s i w = Some (s', l) ->
  hopeless s' /\ forall j ls, l <> LReturn j ls.
Proof.
  intros L HP H. unfold write_step in H. cbv zeta in H. destruct (writer s i) eqn:W.
  1: { destruct (lock s) eqn:LK; [discriminate|]. injection H as <- <-. unfold hopeless. cbn. rewrite upd_same. split; auto; discriminate. }
  all: destruct (locked_owner _ _ _ L W ltac:(discriminate)) as (LK & P & O); unfold hopeless in HP; rewrite LK, W in HP.
  all: try (break_step H; unfold hopeless; cbn; rewrite ?LK, ?upd_same; split; auto; discriminate).
  - injection H as <- <-. unfold hopeless; cbn; rewrite ?LK, ?upd_same; split; [|discriminate]. exists (fresh s). rewrite upd_same. auto.
  - destruct HP as (e & He & Hs). rewrite He in H. injection H as <- <-. unfold hopeless; cbn; rewrite ?LK, ?upd_same; split; [|discriminate].
    exists e; auto.
  - destruct HP as (e1 & He & Hs). destruct P as (r & Pe & _). assert (e1 = e) as -> by congruence. rewrite Hs in H.
    break_step H; unfold hopeless; cbn; rewrite ?LK, ?upd_same; split; auto; discriminate.
Qed.
Lemma hopeless_run s tr s' : run s tr s' -> is_dead s -> locked s -> hopeless s ->
  hopeless s' /\ locked s' /\ forall j ls, ~ In (LReturn j ls) (labels tr).
Proof.
  intros R D L HP. induction R as [s|s tr s' a l s'' R IH H]; [auto|]. destruct (IH D L HP) as (HP' & L' & N).
  assert (D' : is_dead s') by (destruct (dead_stays _ _ _ R D) as [E _]; destruct D as (e & x & D); exists e, x; congruence).
  destruct a as [ri|i w]; cbn [act] in H; [rewrite (dead_read _ _ D') in H; discriminate|].
  destruct (hopeless_step _ _ _ _ _ L' HP' H) as [HP'' NR]. split; auto. split; [eapply (locked_step _ (AWrite i w)); eauto|].
  intros j ls. rewrite labels_app, in_app_iff. intros [C|[C|[]]]; [eapply N; eauto|]. cbn in C. eapply NR; eauto.
Qed.
Lemma dead_no_return tr0 s tr s' tr1 i tr2 j ls : run s_init tr0 s -> is_dead s -> run s tr s' ->
  labels tr = tr1 ++ LStart i :: tr2 -> ~ In (LReturn j ls) tr2.
Proof.
  intros R0 D R E. pose proof (run_locked _ _ R0) as L. apply labels_split in E as (ta & y & tb & -> & <- & <-).
  apply run_split in R as (m & R1 & R2). change ((y, LStart i) :: tb) with ([(y, LStart i)] ++ tb) in R2.
  apply run_split in R2 as (m2 & R2 & R3). apply run_one in R2.
  assert (Dm : is_dead m) by (destruct (dead_stays _ _ _ R1 D) as [Em _]; destruct D as (e & x & D); exists e, x; congruence).
  assert (Lm : locked m) by (eapply run_inv; [intros; eapply locked_step; eauto|exact R1|auto]).
  destruct y as [ri|k w]; cbn [act] in R2; [rewrite (dead_read _ _ Dm) in R2; discriminate|].
  assert (Dm2 : is_dead m2) by (unfold is_dead; rewrite (write_reader _ _ _ _ _ R2); auto).
  assert (Lm2 : locked m2) by (eapply (locked_step _ (AWrite k w)); eauto).
  assert (hopeless m2).
  { unfold write_step in R2. cbv zeta in R2. destruct (writer m k) eqn:W;
      repeat match type of R2 with context [match ?x with _ => _ end] => destruct x eqn:?; try discriminate R2 end; try discriminate R2.
    injection R2 as <- <-. destruct (locked_owner _ _ _ Lm W ltac:(discriminate)) as (LK & _ & _). unfold hopeless. cbn.
    rewrite LK, upd_same. exists (fresh m). rewrite upd_same. auto. }
  apply (hopeless_run _ _ _ R3); auto.
Qed.

(** ** Executions by computation *)
Fixpoint exec (s : sstate) (as_ : list action) : option (list (action * label) * sstate) :=
  match as_ with
  | [] => Some ([], s)
  | a :: r => match act s a with
              | Some (s', l) => match exec s' r with Some (tr, s'') => Some ((a, l) :: tr, s'') | None => None end
              | None => None
              end
  end.
Lemma exec_run s as_ tr s' : exec s as_ = Some (tr, s') -> run s tr s'.
Proof.
  revert s tr s'. induction as_ as [|a r IH]; intros s tr s' H; cbn in H.
  - injection H as <- <-. constructor.
  - destruct (act s a) as [[m l]|] eqn:A; [|discriminate]. destruct (exec m r) as [[t e]|] eqn:X; [|discriminate].
    injection H as <- <-. eapply run_cons; eauto.
Qed.
