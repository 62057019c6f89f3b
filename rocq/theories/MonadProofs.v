(** Reasoning about methods run against a script. *)
From Verif Require Import Base ModemCore ModemSpec WriteProofs.

Lemma bind_done {A B} (c : M A) (f : A -> M B) w x w2 : mbind c f w = Done x w2 ->
  (exists a w1, c w = Done (Ok a) w1 /\ f a w1 = Done x w2) \/ (exists e, c w = Done (Err e) w2 /\ x = Err e).
Proof. unfold mbind. destruct (c w) as [[a|e] w1|w1] eqn:E; intro H; try discriminate; [left; eauto|right; injection H as <- <-; eauto]. Qed.
Lemma bind_ok {A B} (c : M A) (f : A -> M B) w x w2 : mbind c f w = Done (Ok x) w2 ->
  exists a w1, c w = Done (Ok a) w1 /\ f a w1 = Done (Ok x) w2.
Proof. intro H. apply bind_done in H as [H|(e & _ & E)]; [auto|discriminate]. Qed.
Lemma bind_run {A B} (c : M A) (f : A -> M B) w a w1 : c w = Done (Ok a) w1 -> mbind c f w = f a w1.
Proof. intro H. unfold mbind. rewrite H. auto. Qed.
Lemma bind_assoc {A B C} (c : M A) (f : A -> M B) (g : B -> M C) w : mbind (mbind c f) g w = mbind c (fun x => mbind (f x) g) w.
Proof. unfold mbind. destruct (c w) as [[a|e] w1|w1]; auto. Qed.

(** what a finished command tells *)
Definition command_done (data term : str) (w : world) (x : res (list str)) (w' : world) : Prop :=
  exists busy codes r, script w = busy ++ r :: script w' /\ all_busy busy codes /\ not_busy r /\ outcome data r x /\
    dev w' = set_writeWait (wait_after x (writeWait (dev w)) codes) (dev w) /\
    trace w' = trace w ++ attempts (data ++ term) (writeWait (dev w)) busy r.
Lemma write_done data term w x w' : write_with data term true w = Done x w' <-> command_done data term w x w'.
Proof.
  split.
  - intro H. destruct (write_any data term w) as [(busy & codes & r & rest & x0 & E & B & NB & O & W)|(busy & codes & w0 & _ & _ & W)]; rewrite W in H; [|discriminate].
    injection H as <- <-. exists busy, codes, r. cbn [script dev trace]. auto 6.
  - intros (busy & codes & r & E & B & NB & O & D & T). unfold write_with. rewrite E, (write_retries _ _ _ _ B _ x) by auto.
    destruct w' as [m' sc' tr']. cbn in *. subst. auto.
Qed.
Lemma write_simple data w r rest x : script w = r :: rest -> not_busy r -> outcome data r x ->
  write data w = Done x (mk_world (dev w) rest (trace w ++ EWrite (data ++ CR) (Some r) :: match r with Lines _ => pause (writeWait (dev w)) | NoReply _ => [] end)).
Proof. intros E NB O. unfold write, write_with. rewrite E, (write_outcome _ _ _ _ _ _ x) by auto. reflexivity. Qed.

Lemma outcome_ok data r ls : outcome data r (Ok ls) -> r = Lines ls /\ exists ls0 line, ls = ls0 ++ [line] /\ good_line line.
Proof. intro O. inversion O; subst. eauto. Qed.
Lemma good_not_busy ls line : good_line line -> not_busy (Lines (ls ++ [line])).
Proof.
  intros [G _] c (_ & l & x & k & E & C). injection E as E. apply app_inj_tail in E as [-> ->]. apply G. eapply cm_is_error; eauto.
Qed.
Lemma write_good data w ls line rest : script w = Lines (ls ++ [line]) :: rest -> good_line line ->
  write data w = Done (Ok (ls ++ [line])) (mk_world (dev w) rest (trace w ++ EWrite (data ++ CR) (Some (Lines (ls ++ [line]))) :: pause (writeWait (dev w)))).
Proof. intros E G. rewrite (write_simple _ _ (Lines (ls ++ [line])) rest (Ok (ls ++ [line]))); auto; [apply good_not_busy; auto|constructor; auto]. Qed.

(** the attempts end with the answered one *)
Lemma attempts_last text wait busy r : exists pre,
  attempts text wait busy r = pre ++ EWrite text (Some r) :: match r with Lines _ => pause (wait + 2 * Z.of_nat (length busy)) | NoReply _ => [] end /\
  Forall (fun e => match e with EWrite t _ => t = text | ESleep _ => True | _ => False end) pre.
Proof.
  revert wait. induction busy as [|b busy IH]; intro wait.
  - exists []. cbn. rewrite Z.add_0_r. split; auto.
  - destruct (IH (wait + 2)) as (pre & E & F). exists (EWrite text (Some b) :: pause wait ++ ESleep (wait + 2) :: pre). cbn [attempts].
    rewrite E. split.
    + cbn. rewrite <- app_assoc. cbn. replace (wait + 2 + 2 * Z.of_nat (length busy)) with (wait + 2 * Z.of_nat (S (length busy))) by lia. auto.
    + constructor; auto. apply Forall_app. split; [|constructor; auto]. unfold pause. destruct (0 <? wait); auto.
Qed.
Lemma attempts_forall (P : event -> Prop) text busy r : (forall x, P (EWrite text x)) -> (forall t, P (ESleep t)) -> forall wait, Forall P (attempts text wait busy r).
Proof.
  intros H1 H2. assert (Hp : forall wait, Forall P (pause wait)) by (intro; unfold pause; destruct (0 <? wait); auto).
  induction busy as [|b busy IH]; intro wait; cbn [attempts].
  - constructor; auto. destruct r; auto.
  - constructor; auto. apply Forall_app. split; auto.
Qed.

Ltac minv H :=
  let a := fresh "a" in let w1 := fresh "w" in let H1 := fresh "R" in let e := fresh "e" in
  apply bind_done in H as [(a & w1 & H1 & H)|(e & H1 & H)].

(** ** Attributes that a method leaves alone *)
Definition last_of {A} (o : out A) : world := match o with Done _ w => w | Stuck w => w end.
Definition keeps {A X} (f : modem -> X) (c : M A) : Prop := forall w, f (dev (last_of (c w))) = f (dev w).
Lemma keeps_ret {A X} (f : modem -> X) (x : A) : keeps f (ret x). Proof. intro w. auto. Qed.
Lemma keeps_raise {A X} (f : modem -> X) e : keeps f (@raise A e). Proof. intro w. auto. Qed.
Lemma keeps_lift {A X} (f : modem -> X) (x : res A) : keeps f (lift x). Proof. intro w. auto. Qed.
Lemma keeps_get {X} (f : modem -> X) : keeps f get. Proof. intro w. auto. Qed.
Lemma keeps_tell {X} (f : modem -> X) e : keeps f (tell e). Proof. intro w. auto. Qed.
Lemma keeps_modify {X} (f : modem -> X) g : (forall m, f (g m) = f m) -> keeps f (modify g). Proof. intros H w. apply H. Qed.
Lemma keeps_bind {A B X} (f : modem -> X) (c : M A) (k : A -> M B) : keeps f c -> (forall x, keeps f (k x)) -> keeps f (mbind c k).
Proof.
  intros H1 H2 w. unfold mbind. specialize (H1 w). destruct (c w) as [[a|e] w1|w1]; cbn [last_of] in *; auto. rewrite H2. auto.
Qed.
Lemma keeps_try {A X} (f : modem -> X) (c : M A) h : keeps f c -> (forall e k, h e = Some k -> keeps f k) -> keeps f (try_except c h).
Proof.
  intros H1 H2 w. unfold try_except. specialize (H1 w). destruct (c w) as [[a|e] w1|w1]; cbn [last_of] in *; auto.
  destruct (h e) eqn:E; auto. rewrite (H2 _ _ E). auto.
Qed.
Lemma write_on_keeps {X} (f : modem -> X) : (forall v m, f (set_writeWait v m) = f m) -> forall sc m tr data term pe,
  f (dev (last_of (write_on sc m tr data term pe))) = f m.
Proof.
  intro H. induction sc as [|r sc IH]; intros m tr data term pe; cbn [write_on last_of dev]; auto.
  destruct r as [ls|[|l ls]]; auto. destruct (rev ls) as [|line l]; auto. destruct pe; auto. destruct (judge data line) as [|e|code]; auto. cbv zeta.
  specialize (IH (set_writeWait (writeWait m + 2) m) (paused (writeWait m) (tr ++ [EWrite (data ++ term) (Some (Lines ls))]) ++ [ESleep (writeWait (set_writeWait (writeWait m + 2) m))]) data term true).
  destruct (write_on sc _ _ data term true) as [[a|e] w|w]; cbn [last_of dev] in *; rewrite ?H in *; auto.
Qed.
Lemma keeps_write {X} (f : modem -> X) data term pe : (forall v m, f (set_writeWait v m) = f m) -> keeps f (write_with data term pe).
Proof. intros H w. apply write_on_keeps. auto. Qed.
Lemma keeps_nowait {X} (f : modem -> X) data : keeps f (write_nowait data).
Proof. intro w. auto. Qed.
Ltac keeps_tac :=
  repeat first
  [ apply keeps_bind; [|intros ?] | apply keeps_ret | apply keeps_raise | apply keeps_lift | apply keeps_get | apply keeps_tell
  | apply keeps_modify; intros; reflexivity | apply keeps_write; intros; reflexivity | apply keeps_nowait
  | match goal with |- keeps _ (if ?b then _ else _) => destruct b end
  | match goal with |- keeps _ (match ?b with _ => _ end) => destruct b end ].
