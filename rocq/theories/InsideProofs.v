(** Proofs about callbacks that use the port. *)
From Verif Require Import Base RegexModel SerialModel SerialSpec LifeModel LifeSpec CrowdModel CrowdSpec InsideModel InsideSpec
  RegexProofs SerialProofs ThreadProofs LifeProofs CrowdProofs.

Lemma ilabels_app a b : ilabels (a ++ b) = ilabels a ++ ilabels b.
Proof. apply map_app. Qed.
Lemma life_labels_app a b : life_labels (a ++ b) = life_labels a ++ life_labels b.
Proof. apply flat_map_app. Qed.
Lemma irun_split s tr1 tr2 s' : irun s (tr1 ++ tr2) s' -> exists m, irun s tr1 m /\ irun m tr2 s'.
Proof.
  intro R. remember (tr1 ++ tr2) as tr eqn:E. revert tr1 tr2 E.
  induction R as [s|s tr s' a l s'' R IH H]; intros tr1 tr2 E.
  - symmetry in E. apply app_eq_nil in E as [-> ->]. exists s. split; constructor.
  - destruct tr2 as [|x tr2] using rev_ind.
    + rewrite app_nil_r in E. subst tr1. exists s''. split; [econstructor; eauto|constructor].
    + clear IHtr2. rewrite app_assoc in E. apply app_inj_tail in E as [-> <-].
      destruct (IH tr1 tr2 eq_refl) as (m & R1 & R2). exists m. split; auto. econstructor; eauto.
Qed.
Lemma irun_nil_inv s s' : irun s [] s' -> s = s'.
Proof. intro R. remember [] as tr eqn:E. destruct R as [s|s tr s' a l s'' R H]; auto. destruct tr; discriminate. Qed.
Lemma irun_one s a l s' : irun s [(a, l)] s' -> iact s a = Some (s', l).
Proof.
  intro R. remember [(a, l)] as tr0 eqn:E. destruct R as [s|s tr m b k s'' R H]; [discriminate|].
  apply (app_inj_tail tr []) in E as [-> [= -> ->]]. apply irun_nil_inv in R as <-. auto.
Qed.
Lemma irun_cons_inv s x tr s'' : irun s (x :: tr) s'' -> exists s', iact s (fst x) = Some (s', snd x) /\ irun s' tr s''.
Proof.
  intro R. apply (irun_split s [x] tr) in R as (m & R1 & R2). destruct x as [a l]. apply irun_one in R1. eauto.
Qed.
Lemma ilabels_split tr a l b : ilabels tr = a ++ l :: b ->
  exists tra x trb, tr = tra ++ (x, l) :: trb /\ ilabels tra = a /\ ilabels trb = b.
Proof.
  revert a. induction tr as [|[x k] tr IH]; intros [|m a] E; cbn in E; try discriminate.
  - injection E as -> <-. exists [], x, tr. auto.
  - injection E as -> E. destruct (IH _ E) as (tra & y & trb & -> & <- & <-). exists ((x, m) :: tra), y, trb. auto.
Qed.
Lemma irun_join s t1 m : irun s t1 m -> forall t2 s', irun m t2 s' -> irun s (t1 ++ t2) s'.
Proof. intros R t2 s' R2. induction R2 as [|m t2 k a l k' R2 IH A]; [rewrite app_nil_r; auto|]. rewrite app_assoc. econstructor; eauto. Qed.
Lemma irun_inv (P : inner -> Prop) (Q ok : ilabel -> Prop) :
  (forall s a s' l, P s -> ok l -> iact s a = Some (s', l) -> P s' /\ Q l) ->
  forall s tr s', irun s tr s' -> P s -> (forall l, In l (ilabels tr) -> ok l) -> P s' /\ Forall Q (ilabels tr).
Proof.
  intros K s tr s'. induction 1 as [s|s tr s' a l s'' R IH H]; intros HP HO; [split; [auto|constructor]|].
  rewrite ilabels_app in *. cbn in *. destruct IH as [P1 F]; auto. { intros k Hk. apply HO. apply in_or_app. auto. }
  destruct (K _ _ _ _ P1 (HO l ltac:(apply in_or_app; cbn; auto)) H) as [P2 Q2]. split; auto. apply Forall_app; auto.
Qed.

(** ** The kinds of steps *)
Inductive kind (s : inner) : iaction -> inner -> ilabel -> Prop :=
| k_read i err x l : within s = Outside -> loop (outer s) <> PFatal ->
    (loop (outer s) = PIter -> reader (base (outer s)) = RNote2 -> err = false -> in_empty i = false) ->
    loop_step (outer s) i err = Some (x, l) -> kind s (OAct (DRead i err)) (mk_inner x Outside) (IL l)
| k_note i : within s = Outside -> loop (outer s) = PIter -> reader (base (outer s)) = RNote2 -> in_empty i = true ->
    kind s (OAct (DRead i false)) (mk_inner (outer s) InNote) (IL (LBase (LCallback (notif (base (outer s))))))
| k_fatal i err : within s = Outside -> loop (outer s) = PFatal -> kind s (OAct (DRead i err)) (mk_inner (outer s) InFatal) (IL LFatal)
| k_write j w err x l : j <> me -> life_write (outer s) j w err = Some (x, l) -> kind s (OAct (DWrite j w err)) (mk_inner x (within s)) (IL l)
| k_close x l : close_step (outer s) = Some (x, l) -> kind s (OAct DClose) (mk_inner x (within s)) (IL l)
| k_connect x l : connect_step (outer s) = Some (x, l) -> kind s (OAct DConnect) (mk_inner x (within s)) (IL l)
| k_inwrite w err x l : within s <> Outside -> life_write (outer s) me w err = Some (x, l) -> kind s (InWrite w err) (mk_inner x (within s)) (IL l)
| k_inclose : within s <> Outside -> writer (base (outer s)) me = WIdle ->
    kind s InClose (mk_inner (mk_life (base (outer s)) false (is_open (outer s)) (loop (outer s)) (owner (outer s))) (within s)) INoJoin
| k_return_note : within s = InNote -> writer (base (outer s)) me = WIdle ->
    kind s InReturn (mk_inner (let b := base (outer s) in
      mk_life (mk_s (lock b) (evt b) (is_set b) (expect b) (resp b) (heap b) (fresh b) [] (RIdle []) (writer b))
        (up (outer s)) (is_open (outer s)) PTest (owner (outer s))) Outside) IReturn
| k_return_fatal : within s = InFatal -> writer (base (outer s)) me = WIdle -> kind s InReturn (mk_inner (with_loop (outer s) PGone) Outside) IReturn
| k_raise p : within s <> Outside -> writer (base (outer s)) me = WIdle ->
    kind s (InRaise p) (mk_inner (with_loop (outer s) (match within s with InNote => if p then PDown else PGone | _ => PGone end)) Outside) (IExn p).
Lemma iact_kind s a s' l : iact s a = Some (s', l) -> kind s a s' l.
Proof.
  destruct s as [x p]. unfold iact. cbn [outer within]. cbv zeta.
  assert (Q : forall B, (if quiet x then B else None) = Some (s', l) -> writer (base x) me = WIdle /\ B = Some (s', l)).
  { intros B. unfold quiet. destruct (writer (base x) me); try discriminate; auto. }
  assert (L : forall q r, lift q r = Some (s', l) -> exists y k, r = Some (y, k) /\ s' = mk_inner y q /\ l = IL k).
  { intros q [[y k]|]; cbn; [|discriminate]. intros [= <- <-]. eauto. }
  destruct p, a as [a|w err| | |port]; try discriminate; try destruct a as [i err|j w err| |]; try discriminate; intro H;
    try (apply L in H as (y & k & E & -> & ->); now (constructor; auto; cbn; discriminate));
    try (destruct (Nat.eqb_spec j me); [discriminate|]; apply L in H as (y & k & E & -> & ->); cbn in E;
      now (match goal with |- kind ?s _ (mk_inner _ ?p) _ => apply (k_write s j w err y k) end; auto));
    try (apply Q in H as [W H]; injection H as <- <-; now (first [apply (k_return_note (mk_inner x InNote))|apply (k_return_fatal (mk_inner x InFatal))
      |apply (k_inclose (mk_inner x InNote))|apply (k_inclose (mk_inner x InFatal))
      |apply (k_raise (mk_inner x InNote))|apply (k_raise (mk_inner x InFatal))]; auto; discriminate));
    try (apply L in H as (y & k & E & -> & ->); cbn in E;
      now (first [apply (k_close (mk_inner x _))|apply (k_connect (mk_inner x _))|apply k_inwrite]; auto; cbn; discriminate)).
  destruct (loop x) eqn:Lp.
  2: destruct (reader (base x)) eqn:Rd.
  13: { destruct err; [|destruct (in_empty i) eqn:Em].
        - apply L in H as (y & k & E & -> & ->). apply (k_read (mk_inner x Outside) i true y k); cbn; auto; [congruence|discriminate].
        - injection H as <- <-. apply (k_note (mk_inner x Outside) i); auto.
        - apply L in H as (y & k & E & -> & ->). apply (k_read (mk_inner x Outside) i false y k); cbn; auto. congruence. }
  16: { injection H as <- <-. apply (k_fatal (mk_inner x Outside) i err); auto. }
  all: apply L in H as (y & k & E & -> & ->); apply (k_read (mk_inner x Outside) i err y k); cbn; auto; congruence.
Qed.

(** ** Where things stand *)
Definition unanswered (b : sstate) : Prop := exists r, resp b = Some r /\ heap b r = [].
Definition unset (b : sstate) : Prop := exists e, evt b = Some e /\ is_set b e = false.
Definition mine (b : sstate) : Prop :=
  match writer b me with
  | WIdle | WCheck _ | WSetResp _ | WSendNW _ | WRel => True
  | WSetEvt _ => unanswered b
  | WSend _ | WLoad => unanswered b /\ unset b
  | WWait e => unanswered b /\ is_set b e = false
  | WClrEvt ok | WClrExp ok | WRet ok => unanswered b /\ ok = false
  | WFail => False
  end.
Definition exclusive (b : sstate) : Prop := forall j, writer b j <> WIdle -> lock b = Some j.
Definition sane (s : inner) : Prop :=
  exclusive (base (outer s)) /\ mine (base (outer s)) /\
  match within s with
  | Outside => writer (base (outer s)) me = WIdle
  | InNote => loop (outer s) = PIter /\ reader (base (outer s)) = RNote2
  | InFatal => loop (outer s) = PFatal
  end.
Lemma excl_write b i w b' l : exclusive b -> write_step b i w = Some (b', l) -> exclusive b'.
Proof.
  intros X H j N. unfold write_step in H. cbv zeta in H.
  assert (U : forall x, upd (writer b) i x j <> WIdle -> j = i \/ writer b j <> WIdle).
  { intros x. unfold upd. destruct (Nat.eqb_spec j i); auto. }
  destruct (writer b i) eqn:W.
  { destruct (lock b) eqn:L; [discriminate|]. injection H as <- <-. cbn in *. apply U in N as [->|N]; auto. apply X in N. congruence. }
  12: discriminate.
  11: { injection H as <- <-. cbn in *. unfold upd in N. destruct (Nat.eqb_spec j i); [congruence|]. apply X in N. specialize (X i). rewrite W in X. rewrite X in N by discriminate. congruence. }
  all: assert (Li : lock b = Some i) by (apply X; congruence);
    break_step H; cbn in *; apply U in N as [->|N]; auto; apply X in N; congruence.
Qed.
Lemma excl_fail b i : exclusive b -> writer b i <> WIdle -> exclusive (set_writer b i WRel).
Proof. intros X W j N. cbn in *. unfold upd in N. destruct (Nat.eqb_spec j i); subst; auto. Qed.
Lemma excl_life s i w e s' l : exclusive (base s) -> life_write s i w e = Some (s', l) -> exclusive (base s').
Proof.
  intros X H. apply life_write_shape in H as (_ & _ & _ & _ & _ & [(k & -> & W & _)|(b & -> & -> & op & W)]).
  - eapply excl_write; eauto.
  - apply excl_fail; auto. destruct W as [[_ W]|[_ W]]; rewrite W; discriminate.
Qed.
Lemma excl_read b i b' l : exclusive b -> read_step b i = Some (b', l) -> exclusive b'.
Proof.
  intros X H. assert (writer b' = writer b /\ lock b' = lock b) as [E1 E2]. { unfold read_step in H. cbv zeta in H. break_step H; auto. }
  intro j. rewrite E1, E2. apply X.
Qed.
(** another thread's step while the callback has the lock: there is none *)
Lemma other_blocked b j w : exclusive b -> writer b me <> WIdle -> j <> me -> write_step b j w = None.
Proof.
  intros X W N. assert (writer b j = WIdle) as E. { destruct (writer b j) eqn:Wj; auto; assert (lock b = Some j) by (apply X; congruence); apply X in W; congruence. }
  unfold write_step. rewrite E. rewrite (X _ W). reflexivity.
Qed.
Lemma mine_step b w b' l : mine b -> write_step b me w = Some (b', l) ->
  mine b' /\ (forall ls, l <> LReturn me ls) /\ (forall ls, l = LTimeout me ls -> ls = []) /\ l <> LCrashW me.
Proof.
  intros M H. unfold write_step in H. unfold mine in M. cbv zeta in H.
  assert (S : forall x, upd (writer b) me x me = x) by reflexivity.
  destruct (writer b me) eqn:W; try contradiction; try discriminate.
  - destruct (lock b); [discriminate|]. injection H as <- <-. cbn. repeat split; discriminate.
  - break_step H; cbn; repeat split; discriminate.
  - injection H as <- <-. unfold mine. cbn. split; [|repeat split; discriminate]. exists (fresh b). cbn. unfold upd. rewrite Nat.eqb_refl. auto.
  - injection H as <- <-. unfold mine. cbn. split; [|repeat split; discriminate]. split; auto.
    exists (fresh b). cbn. unfold upd. rewrite Nat.eqb_refl. auto.
  - injection H as <- <-. unfold mine. cbn. split; [|repeat split; discriminate]. auto.
  - destruct M as [M (e & E & F)]. rewrite E in H. injection H as <- <-. unfold mine. cbn. split; [|repeat split; discriminate]. auto.
  - destruct M as [M F]. rewrite F in H. destruct (in_timeout w); [|discriminate]. injection H as <- <-. unfold mine. cbn. split; [|repeat split; discriminate]. auto.
  - injection H as <- <-. unfold mine. cbn. split; [|repeat split; discriminate]. auto.
  - injection H as <- <-. unfold mine. cbn. split; [|repeat split; discriminate]. auto.
  - destruct M as [(r & E & F) ->]. rewrite E in H. injection H as <- <-. unfold mine. cbn. split; auto. split; [discriminate|]. split; [|discriminate]. intros ls [= <-]. auto.
  - injection H as <- <-. unfold mine. cbn. split; auto. repeat split; discriminate.
  - injection H as <- <-. unfold mine. cbn. split; auto. repeat split; discriminate.
Qed.
Lemma mine_idle b : writer b me = WIdle -> mine b.
Proof. intro W. unfold mine. rewrite W. exact I. Qed.
Lemma write_other b j w b' l : j <> me -> write_step b j w = Some (b', l) -> writer b' me = writer b me.
Proof.
  intros N H. unfold write_step in H. cbv zeta in H. assert (K : forall x, upd (writer b) j x me = writer b me).
  { intro x. unfold upd. destruct (Nat.eqb_spec me j); congruence. }
  break_step H; cbn; auto; apply K.
Qed.
Definition my_fate (l : ilabel) : Prop :=
  (forall ls, l <> IL (LBase (LReturn me ls))) /\ (forall ls, l = IL (LBase (LTimeout me ls)) -> ls = []) /\ l <> IL (LBase (LCrashW me)).
Lemma fate_read b i b' k : read_step b i = Some (b', k) -> my_fate (IL (LBase k)).
Proof. intro H. unfold read_step in H. cbv zeta in H. unfold my_fate. break_step H; repeat split; discriminate. Qed.
Lemma fate_other b j w b' k : j <> me -> write_step b j w = Some (b', k) -> my_fate (IL (LBase k)).
Proof. intros N H. unfold write_step in H. cbv zeta in H. unfold my_fate. break_step H; repeat split; congruence. Qed.
Lemma sane_step s a s' l : sane s -> iact s a = Some (s', l) -> sane s' /\ my_fate l.
Proof.
  intros (X & M & Wi) H. assert (T : forall l, match l with IL (LBase _) => False | _ => True end -> my_fate l).
  { intros l0 Q. unfold my_fate. destruct l0 as [[]| | |]; try contradiction; repeat split; discriminate. }
  apply iact_kind in H. destruct H as [i err x l Wo Lp Em H|i Wo Lp Rd Em|i err Wo Lp|j w err x l N H|x l H|x l H|w err x l Wo H|Wo W|Wo W|Wo W|p Wo W];
    unfold sane; cbn [outer within]; try rewrite Wo in Wi.
  - assert (K : exclusive (base x) /\ writer (base x) me = WIdle /\ my_fate (IL l)).
    { unfold loop_step in H. cbv zeta in H. destruct (loop (outer s)); try discriminate;
        try (now (break_step H; cbn; auto)).
      destruct (_ && _); [injection H as <- <-; cbn; auto|]. destruct (read_step _ _) as [[b k]|] eqn:R; [|discriminate]. injection H as <- <-. cbn.
      split; [eapply excl_read; eauto|]. split; [|eapply fate_read; eauto]. rewrite <- Wi. clear - R. unfold read_step in R. cbv zeta in R. break_step R; auto. }
    destruct K as (K1 & K2 & K3). split; [|exact K3]. split; [auto|]. split; [apply mine_idle|]; auto.
  - split; [auto|]. unfold my_fate. repeat split; discriminate.
  - split; [|apply T; exact I]. auto.
  - pose proof (excl_life _ _ _ _ _ _ X H) as X'.
    apply life_write_shape in H as (E1 & E2 & E3 & E4 & E5 & K).
    assert (K' : mine (base x) /\ writer (base x) me = writer (base (outer s)) me /\ my_fate (IL l)).
    { destruct K as [(k & -> & W & _)|(b & -> & E & op & W)].
      - pose proof (write_other _ _ _ _ _ N W) as WO. split; [|split; [auto|eapply fate_other; eauto]].
        destruct (writer (base (outer s)) me) eqn:Wm; [apply mine_idle; auto|..]; rewrite (other_blocked _ _ w X) in W by congruence; discriminate.
      - assert (WM : writer (base x) me = writer (base (outer s)) me). { rewrite E. cbn. unfold upd. destruct (Nat.eqb_spec me j); congruence. }
        split; [|split; [exact WM|apply T; exact I]]. apply mine_idle. rewrite WM.
        destruct (writer (base (outer s)) me) eqn:Wm; auto; assert (L1 : lock (base (outer s)) = Some me) by (apply X; congruence);
          assert (L2 : lock (base (outer s)) = Some j) by (apply X; destruct W as [[_ W]|[_ W]]; congruence); congruence. }
    destruct K' as (K1 & K2 & K3). split; [|auto]. split; [auto|]. split; [auto|]. destruct (within s); rewrite ?E3, ?E5; auto; congruence.
  - assert (base x = base (outer s) /\ (loop x = loop (outer s)) /\ my_fate (IL l)) as (B & L & F).
    { unfold close_step in H. break_step H; cbn; auto. }
    rewrite B, L. auto.
  - unfold connect_step in H. destruct (owner (outer s)); try discriminate. destruct (loop (outer s)) eqn:Lp; try discriminate. injection H as <- <-. cbn.
    split; [|apply T; exact I]. split; [exact X|]. split; [exact M|]. destruct (within s); auto; [destruct Wi; congruence|congruence].
  - pose proof (excl_life _ _ _ _ _ _ X H) as X'. apply life_write_shape in H as (E1 & E2 & E3 & E4 & E5 & K).
    assert (K' : mine (base x) /\ my_fate (IL l)).
    { destruct K as [(k & -> & W & _)|(b & -> & E & op & W)].
      - apply mine_step in W as (M' & F1 & F2 & F3); auto. split; auto. unfold my_fate. repeat split; try congruence. intros ls [= ->]. auto.
      - split; [|apply T; exact I]. rewrite E. unfold mine. cbn. exact I. }
    destruct K' as (K1 & K3). split; [|auto]. split; [auto|]. split; [auto|]. destruct (within s); rewrite ?E3, ?E5; auto; congruence.
  - split; [|apply T; exact I]. auto.
  - split; [|apply T; exact I]. cbn. auto.
  - split; [|apply T; exact I]. cbn. auto.
  - split; [|apply T; exact I]. cbn. auto.
Qed.
Lemma sane_run tr s : irun i_init tr s -> sane s /\ Forall my_fate (ilabels tr).
Proof.
  intro R. apply (irun_inv sane my_fate (fun _ => True)) with (s := i_init); auto.
  - intros. eapply sane_step; eauto.
  - split; [|split]; cbn; auto. intros j N. cbn in N. congruence.
Qed.
(** A callback's command never gets an answer. *)
Theorem inside_unanswered tr s ls : irun i_init tr s ->
  ~ In (IL (LBase (LReturn me ls))) (ilabels tr) /\ (In (IL (LBase (LTimeout me ls))) (ilabels tr) -> ls = []) /\ ~ In (IL (LBase (LCrashW me))) (ilabels tr).
Proof.
  intro R. apply sane_run in R as [_ F]. rewrite Forall_forall in F. repeat split.
  - intro I. apply F in I as (A & _). exact (A ls eq_refl).
  - intro I. apply F in I as (_ & A & _). auto.
  - intro I. apply F in I as (_ & _ & A). auto.
Qed.

(** ** A callback that writes is another thread that writes *)
Definition clear (b : sstate) : sstate :=
  mk_s (lock b) (evt b) (is_set b) (expect b) (resp b) (heap b) (fresh b) [] (RIdle []) (writer b).
Definition settle (s : life) : life := mk_life (clear (base s)) (up s) (is_open s) PTest (owner s).
Definition done (s : inner) : life :=
  match within s with Outside => outer s | InNote => settle (outer s) | InFatal => with_loop (outer s) PGone end.
Lemma write_clear b i w : write_step (clear b) i w = match write_step b i w with Some (b', l) => Some (clear b', l) | None => None end.
Proof.
  unfold write_step, clear. cbn [writer lock evt is_set expect resp heap fresh notif reader].
  destruct (writer b i) as [|op|op|op|op| |ev|ok|ok|ok|op| |]; try reflexivity;
    
    try (now (destruct (lock b) eqn:E; cbn; rewrite ?E)); try (now (destruct (evt b) eqn:E; cbn; rewrite ?E)); try (now (destruct (resp b) eqn:E; cbn; rewrite ?E)).
  - destruct (w_wait op); [destruct (w_expected op) as [[|]|]|]; reflexivity.
  - destruct (is_set b ev); [reflexivity|destruct (in_timeout w); reflexivity].
Qed.
Lemma life_write_settle s i w e : life_write (settle s) i w e = match life_write s i w e with Some (x, l) => Some (settle x, l) | None => None end.
Proof.
  unfold life_write, settle. cbn [base up is_open loop owner]. rewrite write_clear. cbn [clear writer].
  destruct (write_step (base s) i w) as [[b' l']|]; destruct (writer (base s) i); try reflexivity; destruct (e || negb (is_open s)); reflexivity.
Qed.
Lemma life_write_loop s p i w e : life_write (with_loop s p) i w e = match life_write s i w e with Some (x, l) => Some (with_loop x p, l) | None => None end.
Proof.
  unfold life_write, with_loop. cbn [base up is_open loop owner].
  destruct (write_step (base s) i w) as [[b' l']|]; destruct (writer (base s) i); try reflexivity; destruct (e || negb (is_open s)); reflexivity.
Qed.
Lemma done_write s i w e x l : life_write (outer s) i w e = Some (x, l) -> life_write (done s) i w e = Some (done (mk_inner x (within s)), l).
Proof. intro H. unfold done. cbn [outer within]. destruct (within s); rewrite ?life_write_settle, ?life_write_loop, H; reflexivity. Qed.
Lemma done_step s a s' l : sane s -> writes_only l -> iact s a = Some (s', l) ->
  (exists k b, l = IL k /\ lact (done s) b = Some (done s', k)) \/ (l = IReturn /\ done s' = done s).
Proof.
  intros (X & M & Wi) WO H. apply iact_kind in H.
  destruct H as [i err x l Wo Lp Em H|i Wo Lp Rd Em|i err Wo Lp|j w err x l N H|x l H|x l H|w err x l Wo H|Wo W|Wo W|Wo W|p Wo W]; cbn in WO; try contradiction.
  - left. exists l, (DRead i err). split; auto. unfold done. rewrite Wo. cbn. exact H.
  - left. exists (LBase (LCallback (notif (base (outer s))))), (DRead i false). split; auto. unfold done. rewrite Wo. cbn [outer within lact].
    unfold loop_step. rewrite Lp, Rd. cbn [andb]. unfold read_step. rewrite Rd, Em. reflexivity.
  - left. exists LFatal, (DRead i err). split; auto. unfold done. rewrite Wo. cbn [outer within lact]. unfold loop_step. rewrite Lp. reflexivity.
  - left. exists l, (DWrite j w err). split; auto. cbn [lact]. apply done_write. auto.
  - left. exists l, DClose. split; auto. cbn [lact]. unfold done. cbn [outer within]. destruct (within s); auto.
    + destruct Wi as [Lp Rd]. unfold close_step, settle in *. cbn [base up is_open loop owner]. rewrite Lp in H. break_step H; cbn; rewrite ?Lp; reflexivity.
    + unfold close_step, with_loop in *. cbn [base up is_open loop owner]. rewrite Wi in H. break_step H; reflexivity.
  - left. exists l, DConnect. split; auto. cbn [lact]. unfold done. cbn [outer within]. destruct (within s); auto.
    + destruct Wi as [Lp Rd]. unfold connect_step in H. rewrite Lp in H. break_step H.
    + unfold connect_step in H. rewrite Wi in H. break_step H.
  - left. exists l, (DWrite me w err). split; auto. cbn [lact]. apply done_write. auto.
  - right. split; auto. unfold done. rewrite Wo. reflexivity.
  - right. split; auto. unfold done. rewrite Wo. reflexivity.
Qed.
Lemma inside_lives tr s : irun i_init tr s -> Forall writes_only (ilabels tr) ->
  exists tr', lrun l_init tr' (done s) /\ llabels tr' = life_labels (ilabels tr).
Proof.
  intro R. remember i_init as s0 eqn:E. induction R as [s|s tr s' a l s'' R IH H]; intro F.
  - subst. exists []. split; [constructor|reflexivity].
  - subst s. rewrite ilabels_app in F. apply Forall_app in F as [F1 F2]. inversion F2 as [|? ? WO _]; subst. destruct (IH eq_refl F1) as (tr' & R' & L).
    pose proof (proj1 (sane_run _ _ R)) as S. rewrite ilabels_app, life_labels_app, <- L.
    destruct (done_step _ _ _ _ S WO H) as [(k & b & -> & A)|(-> & D)].
    + exists (tr' ++ [(b, k)]). split; [econstructor; eauto|]. rewrite llabels_app. reflexivity.
    + exists tr'. rewrite D. split; auto. cbn. rewrite app_nil_r. reflexivity.
Qed.
Theorem inside_writes tr s : irun i_init tr s -> Forall writes_only (ilabels tr) ->
  exists tr' x, lrun l_init tr' x /\ llabels tr' = life_labels (ilabels tr) /\ (within s = Outside -> x = outer s).
Proof. intros R F. destruct (inside_lives _ _ R F) as (tr' & L & E). exists tr', (done s). repeat split; auto. intro W. unfold done. rewrite W. reflexivity. Qed.

(** ** No AttributeError in write() *)
Definition responded (b : sstate) : Prop :=
  forall j, match writer b j with WSetEvt _ | WSend _ | WLoad | WWait _ | WClrEvt _ | WClrExp _ | WRet _ => resp b <> None | _ => True end.
Lemma responded_write b i w b' l : responded b -> write_step b i w = Some (b', l) -> responded b'.
Proof.
  intros U H j. assert (P : resp b <> None -> resp b' <> None). { unfold write_step in H. cbv zeta in H. break_step H; cbn; congruence. }
  pose proof (U j) as Uj. pose proof (U i) as Ui.
  destruct (Nat.eq_dec j i) as [->|N].
  - unfold write_step in H. cbv zeta in H. assert (Y : forall x, upd (writer b) i x i = x) by (intro x; unfold upd; rewrite Nat.eqb_refl; auto).
    destruct (writer b i) eqn:W; try (now (break_step H; cbn in *; rewrite Y; auto; try discriminate; congruence)).
  - assert (E : writer b' j = writer b j). { unfold write_step in H. cbv zeta in H. assert (Y : forall x, upd (writer b) i x j = writer b j) by (intro x; unfold upd; destruct (Nat.eqb_spec j i); congruence). break_step H; cbn; auto. }
    rewrite E. destruct (writer b j); auto.
Qed.
Lemma responded_step s a s' l : responded (base (outer s)) -> iact s a = Some (s', l) -> responded (base (outer s')).
Proof.
  intros U H. assert (Wr : forall i w e x l, life_write (outer s) i w e = Some (x, l) -> responded (base x)).
  { intros i w e x k X. apply life_write_shape in X as (_ & _ & _ & _ & _ & [(j & -> & W & _)|(b & -> & -> & _)]); [eapply responded_write; eauto|].
    intro j. cbn. unfold upd. destruct (j =? i)%nat; auto. exact (U j). }
  apply iact_kind in H. destruct H as [i0 e0 x l Wo1 Lp Em H|i0 Wo1 Lp Rd Em|i0 e0 Wo1 Lp|j w0 e0 x l N0 H|x l H|x l H|w0 e0 x l Wo1 H|Wo1 W|Wo1 W|Wo1 W|p Wo1 W]; cbn [outer base with_loop]; eauto.
  - assert (writer (base x) = writer (base (outer s)) /\ resp (base x) = resp (base (outer s))) as [E1 E2].
    { unfold loop_step in H. cbv zeta in H. destruct (loop (outer s)); try discriminate; try (now (break_step H; auto)).
      destruct (_ && _); [injection H as <- <-; auto|]. destruct (read_step _ _) as [[b k]|] eqn:Rs; [|discriminate]. injection H as <- <-. cbn. unfold read_step in Rs. cbv zeta in Rs. break_step Rs; auto. }
    intro j. rewrite E1, E2. exact (U j).
  - unfold close_step in H. break_step H; auto.
  - unfold connect_step in H. break_step H; auto.
Qed.
Lemma responded_run tr s : irun i_init tr s -> responded (base (outer s)).
Proof.
  intro R. remember i_init as s0 eqn:E. induction R as [s|s tr s' a l s'' R IH H]; [subst; intro j; exact I|]. eapply responded_step; eauto.
Qed.

(** ** It also stops the commands of others *)
Definition waiting_for (i : nat) (b : sstate) : Prop :=
  match writer b i with WWait e => is_set b e = false | WClrEvt ok | WClrExp ok | WRet ok => ok = false | _ => False end.
Lemma waiting_step b i w b' l : responded b -> waiting_for i b -> write_step b i w = Some (b', l) ->
  (waiting_for i b' /\ l = LTau) \/ (exists ls, l = LTimeout i ls).
Proof.
  intros U A H. specialize (U i). unfold waiting_for in *. unfold write_step in H. destruct (writer b i) eqn:W; try contradiction.
  - rewrite A in H. destruct (in_timeout w); [|discriminate]. injection H as <- <-. left. cbn. unfold upd. rewrite Nat.eqb_refl. auto.
  - subst. injection H as <- <-. left. cbn. unfold upd. rewrite Nat.eqb_refl. auto.
  - subst. injection H as <- <-. left. cbn. unfold upd. rewrite Nat.eqb_refl. auto.
  - subst. destruct (resp b); [|congruence]. injection H as <- <-; eauto.
Qed.
Lemma inside_stops tr0 s i tr a l s' : irun i_init tr0 s -> i <> me -> within s <> Outside -> waiting_for i (base (outer s)) ->
  irun s (tr ++ [(a, l)]) s' -> forallb (fun x => negb (by_callback x)) tr = true -> (exists w err, a = InWrite w err) ->
  exists x rest y, ilabels tr = x ++ y :: rest /\ (exists ls, y = IL (LBase (LTimeout i ls))) /\ forall ls, ~ In (IL (LBase (LReturn i ls))) x.
Proof.
  intros R0 Ni Wo A R B (w & err & ->). apply irun_split in R as (m & R1 & R2). apply irun_one in R2.
  assert (S0 := proj1 (sane_run _ _ R0)). assert (U0 := responded_run _ _ R0).
  assert (K : (waiting_for i (base (outer m)) /\ within m = within s /\ sane m /\ responded (base (outer m)) /\ (forall ls, ~ In (IL (LBase (LReturn i ls))) (ilabels tr))) \/
    exists x rest y, ilabels tr = x ++ y :: rest /\ (exists ls, y = IL (LBase (LTimeout i ls))) /\ forall ls, ~ In (IL (LBase (LReturn i ls))) x).
  { clear R2 l s' w err. induction R1 as [s|s tr m a l m' R IH H]; [left; do 4 (split; [auto|]); intros ls []|].
    rewrite forallb_app in B. apply andb_true_iff in B as [B1 B2]. cbn in B2. rewrite andb_true_r in B2. rewrite ilabels_app. cbn [ilabels map snd].
    destruct (IH R0 Wo A B1 S0 U0) as [(A1 & W1 & S1 & U1 & N1)|(x & rest & y & E & C & N)].
    2: { right. exists x, (rest ++ [l]), y. rewrite E, <- app_assoc. auto. }
    pose proof (proj1 (sane_step _ _ _ _ S1 H)) as S2. pose proof (responded_step _ _ _ _ U1 H) as U2. destruct S1 as (X & M & Pl).
    apply iact_kind in H. destruct H as [i0 e0 x l Wo1 Lp Em H|i0 Wo1 Lp Rd Em|i0 e0 Wo1 Lp|j w0 e0 x l N H|x l H|x l H|w0 e0 x l Wo1 H|Wo1 W|Wo1 W|Wo1 W|p Wo1 W]; try discriminate B2; try congruence.
    - destruct (Nat.eq_dec j i) as [->|Nj].
      + apply life_write_shape in H as (_ & _ & _ & _ & _ & [(k & -> & W & _)|(b & -> & _ & op & W)]).
        * destruct (waiting_step _ _ _ _ _ U1 A1 W) as [(A2 & ->)|(ls & ->)].
          -- left. split; [exact A2|]. split; [exact W1|]. split; [exact S2|]. split; [exact U2|]. intros ls I. apply in_app_iff in I as [I|[I|[]]]; [exact (N1 _ I)|discriminate].
          -- right. exists (ilabels tr), [], (IL (LBase (LTimeout i ls))). split; [reflexivity|]. split; eauto.
        * unfold waiting_for in A1. destruct W as [[_ W]|[_ W]]; rewrite W in A1; contradiction.
      + assert (Li : lock (base (outer m)) = Some i). { apply X. unfold waiting_for in A1. intro W. rewrite W in A1. contradiction. }
        assert (Wj : writer (base (outer m)) j = WIdle). { destruct (writer (base (outer m)) j) eqn:Wj; auto; assert (lock (base (outer m)) = Some j) by (apply X; congruence); congruence. }
        unfold life_write, write_step in H. rewrite Wj, Li in H. discriminate.
    - assert (base x = base (outer m) /\ forall ls, l <> LBase (LReturn i ls)) as [B' NL]. { unfold close_step in H. break_step H; cbn; split; auto; discriminate. }
      left. split; [cbn [outer]; rewrite B'; exact A1|]. split; [exact W1|]. split; [exact S2|]. split; [exact U2|]. intros ls I. apply in_app_iff in I as [I|[I|[]]]; [exact (N1 _ I)|injection I as I; exact (NL _ I)].
    - unfold connect_step in H. destruct (within m) eqn:Wm; [congruence|destruct Pl as [Pl _]|]; rewrite Pl in H; destruct (owner (outer m)); discriminate. }
  destruct K as [(A1 & W1 & S1 & _ & N1)|K]; auto. exfalso.
  assert (Li : lock (base (outer m)) = Some i). { apply S1. unfold waiting_for in A1. intro W. rewrite W in A1. contradiction. }
  assert (Wm : writer (base (outer m)) me = WIdle). { destruct S1 as (X & _). destruct (writer (base (outer m)) me) eqn:Wj; auto; assert (lock (base (outer m)) = Some me) by (apply X; congruence); congruence. }
  apply iact_kind in R2. inversion R2 as [| | | | | |? ? x0 l0 Wo2 H| | | |]; subst. unfold life_write, write_step in H. rewrite Wm, Li in H. discriminate.
Qed.
Theorem inside_blocks tr0 s i e tr w err l s' : irun i_init tr0 s -> within s <> Outside -> i <> me ->
  writer (base (outer s)) i = WWait e -> is_set (base (outer s)) e = false ->
  irun s (tr ++ [(InWrite w err, l)]) s' -> forallb (fun x => negb (by_callback x)) tr = true ->
  exists a ls b, ilabels tr = a ++ IL (LBase (LTimeout i ls)) :: b /\ forall ls, ~ In (IL (LBase (LReturn i ls))) a.
Proof.
  intros R W N Ww U R2 B. destruct (inside_stops tr0 s i tr (InWrite w err) l s') as (x & rest & y & E & (ls & ->) & K); eauto.
  { unfold waiting_for. rewrite Ww. exact U. }
Qed.

(** ** While the callback runs nothing is read *)
Lemma inside_holds s tr s' : irun s tr s' -> within s <> Outside -> ~ In IReturn (ilabels tr) -> (forall p, ~ In (IExn p) (ilabels tr)) ->
  within s' = within s /\ Forall (fun l => ~ delivers l) (life_labels (ilabels tr)).
Proof.
  induction 1 as [s|s tr s' a l s'' R IH H]; intros W N1 N2; [split; [auto|constructor]|].
  rewrite ilabels_app in *. rewrite life_labels_app. destruct IH as [E F]; auto.
  { intro I. apply N1, in_app_iff. auto. } { intros p I. apply (N2 p), in_app_iff. auto. }
  assert (Nl : l <> IReturn /\ forall p, l <> IExn p). { split; [intros ->; apply N1, in_app_iff; cbn; auto|intros p ->; apply (N2 p), in_app_iff; cbn; auto]. }
  apply iact_kind in H. destruct H as [i0 e0 x l Wo1 Lp Em H|i0 Wo1 Lp Rd Em|i0 e0 Wo1 Lp|j w0 e0 x l N H|x l H|x l H|w0 e0 x l Wo1 H|Wo1 Wi|Wo1 Wi|Wo1 Wi|p Wo1 Wi]; try congruence; try (now destruct Nl; congruence); cbn [within]; (split; [auto|]); apply Forall_app; (split; [auto|]).
  - apply life_write_shape in H as (_ & _ & _ & _ & _ & [(k & -> & X & _)|(b & -> & _)]); repeat constructor; auto. eapply write_labels; eauto.
  - unfold close_step in H. break_step H; repeat constructor; auto.
  - unfold connect_step in H. break_step H; repeat constructor; auto.
  - apply life_write_shape in H as (_ & _ & _ & _ & _ & [(k & -> & X & _)|(b & -> & _)]); repeat constructor; auto. eapply write_labels; eauto.
  - constructor.
Qed.

(** ** After it has closed or raised *)
Definition silent (s : inner) : Prop :=
  match within s with
  | Outside => loop (outer s) <> PIter /\ (loop (outer s) = PTest -> up (outer s) = false)
  | InNote => up (outer s) = false
  | InFatal => True
  end.
Definition harmless (l : ilabel) : Prop := match l with IL l => ~ delivers l | _ => True end.
Lemma silent_step s a s' l : silent s -> l <> IL LConnect -> iact s a = Some (s', l) -> silent s' /\ harmless l.
Proof.
  intros Si NC H. unfold silent in Si. apply iact_kind in H.
  destruct H as [i0 e0 x l Wo1 Lp Em H|i0 Wo1 Lp Rd Em|i0 e0 Wo1 Lp|j w0 e0 x l N H|x l H|x l H|w0 e0 x l Wo1 H|Wo1 Wi|Wo1 Wi|Wo1 Wi|p Wo1 Wi]; unfold silent; cbn [within outer harmless].
  - rewrite Wo1 in Si. destruct Si as [S1 S2]. unfold loop_step in H. cbv zeta in H. destruct (loop (outer s)) eqn:L; try congruence; try discriminate.
    + rewrite S2 in H by auto. injection H as <- <-. cbn. split; [split; [discriminate|auto]|auto].
    + injection H as <- <-. cbn. split; [split; [discriminate|auto]|auto].
    + injection H as <- <-. cbn. split; [split; discriminate|auto].
  - rewrite Wo1 in Si. tauto.
  - cbn. auto.
  - apply life_write_shape in H as (E1 & _ & E3 & _ & _ & K). split; [destruct (within s); rewrite ?E1, ?E3; auto|].
    destruct K as [(k & -> & X & _)|(b & -> & _)]; [eapply write_labels; eauto|auto].
  - unfold close_step in H. break_step H; cbn; destruct (within s); auto; destruct Si; auto; split; auto; split; auto; congruence.
  - unfold connect_step in H. break_step H. congruence.
  - apply life_write_shape in H as (E1 & _ & E3 & _ & _ & K). split; [destruct (within s); rewrite ?E1, ?E3; auto|].
    destruct K as [(k & -> & X & _)|(b & -> & _)]; [eapply write_labels; eauto|auto].
  - cbn. split; [|auto]. destruct (within s); auto.
  - rewrite Wo1 in Si. cbn. split; [split; [discriminate|auto]|auto].
  - cbn. split; [split; discriminate|auto].
  - split; [|auto]. destruct (within s); try congruence; [destruct p|]; cbn; split; discriminate.
Qed.
Definition none_set (b : sstate) : Prop :=
  forall j, match writer b j with
  | WSend _ | WLoad => unset b
  | WWait e => is_set b e = false
  | WClrEvt ok | WClrExp ok | WRet ok => ok = false
  | _ => True
  end.
Lemma none_set_step b i w b' l : exclusive b -> none_set b -> write_step b i w = Some (b', l) -> none_set b' /\ forall j ls, l <> LReturn j ls.
Proof.
  intros X U H. assert (Ot : forall j, j <> i -> writer b i <> WIdle -> writer b j = WIdle).
  { intros j N W. destruct (writer b j) eqn:Wj; auto; assert (lock b = Some j) by (apply X; congruence); apply X in W; congruence. }
  assert (K : forall x, writer b i <> WIdle -> forall j, j <> i -> upd (writer b) i x j = WIdle).
  { intros x W j N. unfold upd. destruct (Nat.eqb_spec j i); [congruence|auto]. }
  assert (Y : forall x, upd (writer b) i x i = x). { intro x. unfold upd. rewrite Nat.eqb_refl. auto. }
  pose proof (U i) as Ui. unfold write_step in H. cbv zeta in H. destruct (writer b i) eqn:W; try discriminate.
  { destruct (lock b) eqn:L; [discriminate|]. injection H as <- <-. split; [|discriminate]. intro j. cbn. unfold upd. destruct (j =? i)%nat; auto. exact (U j). }
  all: assert (W' : WCheck (mk_wop [] true None) <> WIdle) by discriminate.
  all: assert (G : forall P : wpc -> Prop, P WIdle -> (forall j x, j <> i -> P (upd (writer b) i x j))) by (intros P P0 j x N; rewrite K; auto; congruence).
  - break_step H; (split; [|discriminate]); intro j; cbn; (destruct (Nat.eq_dec j i) as [->|N]; [rewrite Y; auto|rewrite K; auto; congruence]).
  - break_step H; (split; [|discriminate]); intro j; cbn; (destruct (Nat.eq_dec j i) as [->|N]; [rewrite Y; auto|rewrite K; auto; congruence]).
  - break_step H; (split; [|discriminate]); intro j; cbn; (destruct (Nat.eq_dec j i) as [->|N]; [rewrite Y; auto|rewrite K; auto; congruence]).
    exists (fresh b). cbn. unfold upd. rewrite Nat.eqb_refl. auto.
  - break_step H; (split; [|discriminate]); intro j; cbn; (destruct (Nat.eq_dec j i) as [->|N]; [rewrite Y; auto|rewrite K; auto; congruence]).
  - destruct Ui as (e & Ee & Fe). rewrite Ee in H. injection H as <- <-. split; [|discriminate]. intro j; cbn; (destruct (Nat.eq_dec j i) as [->|N]; [rewrite Y; auto|rewrite K; auto; congruence]).
  - rewrite Ui in H. break_step H; (split; [|discriminate]); intro j; cbn; (destruct (Nat.eq_dec j i) as [->|N]; [rewrite Y; auto|rewrite K; auto; congruence]).
  - break_step H; (split; [|discriminate]); intro j; cbn; (destruct (Nat.eq_dec j i) as [->|N]; [rewrite Y; auto|rewrite K; auto; congruence]).
  - break_step H; (split; [|discriminate]); intro j; cbn; (destruct (Nat.eq_dec j i) as [->|N]; [rewrite Y; auto|rewrite K; auto; congruence]).
  - subst. break_step H; (split; [|discriminate]); intro j; cbn; (destruct (Nat.eq_dec j i) as [->|N]; [rewrite Y; auto|rewrite K; auto; congruence]).
  - break_step H; (split; [|discriminate]); intro j; cbn; (destruct (Nat.eq_dec j i) as [->|N]; [rewrite Y; auto|rewrite K; auto; congruence]).
  - break_step H; (split; [|discriminate]); intro j; cbn; (destruct (Nat.eq_dec j i) as [->|N]; [rewrite Y; auto|rewrite K; auto; congruence]).
Qed.
Lemma none_set_fail b i : none_set b -> none_set (set_writer b i WRel).
Proof. intros U j. cbn. unfold upd. destruct (j =? i)%nat; auto. exact (U j). Qed.
Lemma none_set_life s i w e s' l : exclusive (base s) -> none_set (base s) -> life_write s i w e = Some (s', l) ->
  none_set (base s') /\ forall j ls, l <> LBase (LReturn j ls).
Proof.
  intros X U H. apply life_write_shape in H as (_ & _ & _ & _ & _ & [(k & -> & W & _)|(b & -> & -> & op & W)]).
  - destruct (none_set_step _ _ _ _ _ X U W) as [A B]. split; auto. intros j ls [= ->]. exact (B j ls eq_refl).
  - split; [apply none_set_fail; auto|discriminate].
Qed.
Definition deaf (s : inner) : Prop := sane s /\ silent s /\ none_set (base (outer s)).
Definition no_return (l : ilabel) : Prop := forall j ls, l <> IL (LBase (LReturn j ls)).
Lemma deaf_step s a s' l : deaf s -> l <> IL LConnect -> iact s a = Some (s', l) -> deaf s' /\ no_return l.
Proof.
  intros (Sa & Si & U) NC H. pose proof (proj1 (sane_step _ _ _ _ Sa H)) as Sa'. pose proof (proj1 (silent_step _ _ _ _ Si NC H)) as Si'.
  enough (none_set (base (outer s')) /\ no_return l) by (unfold deaf; tauto). destruct Sa as (X & _).
  assert (NR : forall l, match l with IL (LBase _) => False | _ => True end -> no_return l). { intros l0 Q j ls ->. exact Q. }
  unfold silent in Si. apply iact_kind in H.
  destruct H as [i0 e0 x l Wo1 Lp Em H|i0 Wo1 Lp Rd Em|i0 e0 Wo1 Lp|j w0 e0 x l N H|x l H|x l H|w0 e0 x l Wo1 H|Wo1 Wi|Wo1 Wi|Wo1 Wi|p Wo1 Wi]; cbn [outer].
  - rewrite Wo1 in Si. destruct Si as [S1 S2]. unfold loop_step in H. cbv zeta in H. destruct (loop (outer s)) eqn:L; try congruence; try discriminate.
    + rewrite S2 in H by auto. injection H as <- <-. cbn. split; [auto|apply NR; exact I].
    + injection H as <- <-. cbn. split; [auto|apply NR; exact I].
    + injection H as <- <-. cbn. split; [auto|apply NR; exact I].
  - rewrite Wo1 in Si. tauto.
  - split; [auto|apply NR; exact I].
  - destruct (none_set_life _ _ _ _ _ _ X U H) as [A B]. split; auto. intros i ls [= E]. exact (B i ls E).
  - unfold close_step in H. break_step H; cbn; (split; [auto|apply NR; exact I]).
  - unfold connect_step in H. break_step H. congruence.
  - destruct (none_set_life _ _ _ _ _ _ X U H) as [A B]. split; auto. intros i ls [= E]. exact (B i ls E).
  - split; [auto|apply NR; exact I].
  - split; [auto|apply NR; exact I].
  - split; [auto|apply NR; exact I].
  - split; [auto|apply NR; exact I].
Qed.
Lemma start_deaf s a s' i : sane s -> silent s -> iact s a = Some (s', IL (LBase (LStart i))) -> deaf s'.
Proof.
  intros Sa Si H. pose proof (proj1 (sane_step _ _ _ _ Sa H)) as Sa'. assert (NC : IL (LBase (LStart i)) <> IL LConnect) by discriminate. pose proof (proj1 (silent_step _ _ _ _ Si NC H)) as Si'.
  split; auto. split; auto. destruct Sa' as (X' & _).
  assert (K : forall x b l j w, write_step (base x) j w = Some (b, l) -> l = LStart i -> exclusive b -> none_set b).
  { intros x b l j w W -> X. unfold write_step in W. cbv zeta in W. destruct (writer (base x) j) eqn:Wj; try (now break_step W).
    injection W as <- <-. intro m. cbn. unfold upd at 1. destruct (Nat.eqb_spec m j) as [->|N].
    { exists (fresh (base x)). cbn. unfold upd. rewrite Nat.eqb_refl. auto. }
    destruct (writer (base x) m) eqn:Wm; auto; exfalso;
      (assert (A : lock (base x) = Some m) by (apply (X m); cbn; unfold upd; destruct (Nat.eqb_spec m j); congruence));
      (assert (B : lock (base x) = Some j) by (apply (X j); cbn; unfold upd; rewrite Nat.eqb_refl; discriminate)); congruence. }
  apply iact_kind in H. inversion H as [i0 e0 x l Wo1 Lp Em H1| | |j w0 e0 x l N H1|x l H1|x l H1|w0 e0 x l Wo1 H1| | | |]; subst; cbn [outer] in *.
  - unfold loop_step in H1. cbv zeta in H1. destruct (loop (outer s)) eqn:L; try discriminate; try (now destruct (up (outer s)); discriminate).
    unfold silent in Si. rewrite Wo1 in Si. destruct Si as [Q _]. congruence.
  - apply life_write_shape in H1 as (_ & _ & _ & _ & _ & [(k & E & W & _)|(b & E & _)]); [|discriminate]. injection E as <-. eapply K; eauto.
  - unfold close_step in H1. break_step H1.
  - unfold connect_step in H1. break_step H1.
  - apply life_write_shape in H1 as (_ & _ & _ & _ & _ & [(k & E & W & _)|(b & E & _)]); [|discriminate]. injection E as <-. eapply K; eauto.
Qed.
Theorem inside_stopped tr s a x b : irun i_init tr s -> ilabels tr = a ++ x :: b -> x = INoJoin \/ (exists p, x = IExn p) -> ~ In (IL LConnect) b ->
  Forall (fun l => ~ delivers l) (life_labels b) /\
  forall b1 i b2 j ls, b = b1 ++ IL (LBase (LStart i)) :: b2 -> ~ In (IL (LBase (LReturn j ls))) b2.
Proof.
  intros R E Kx NC. apply ilabels_split in E as (ta & y & tb & -> & <- & <-). apply irun_split in R as (m & R1 & R2). apply irun_cons_inv in R2 as (m' & H & R2). cbn in H.
  assert (S1 := proj1 (sane_run _ _ R1)). assert (S2 := proj1 (sane_step _ _ _ _ S1 H)).
  assert (Si : silent m').
  { apply iact_kind in H. destruct Kx as [->|[p ->]].
    - inversion H; subst. unfold silent. cbn [within outer up]. destruct (within m); auto.
    - inversion H as [| | | | | | | | | |q W W2]; subst. unfold silent. cbn. destruct (within m); try congruence; [destruct p|]; split; discriminate. }
  split.
  - destruct (irun_inv silent harmless (fun l => l <> IL LConnect) silent_step _ _ _ R2 Si) as [_ F]. { intros l I ->. auto. }
    clear - F. induction (ilabels tb) as [|[l| | |] ls IH]; cbn; inversion F; subst; auto.
  - intros b1 i b2 j ls Eb I. apply ilabels_split in Eb as (tc & z & td & -> & <- & <-). apply irun_split in R2 as (n & R3 & R4). apply irun_cons_inv in R4 as (n' & H' & R4). cbn in H'.
    rewrite ilabels_app in NC. cbn in NC. rewrite in_app_iff in NC. cbn in NC.
    destruct (irun_inv (fun s => sane s /\ silent s) (fun _ => True) (fun l => l <> IL LConnect)) with (s := m') (tr := tc) (s' := n) as [[Sn Sl] _]; auto.
    { intros u c u' k [P Q] Nk A. split; auto. split; [eapply sane_step|eapply silent_step]; eauto. }
    { intros l Hl ->. apply NC. auto. }
    pose proof (start_deaf _ _ _ _ Sn Sl H') as D.
    destruct (irun_inv deaf no_return (fun l => l <> IL LConnect) deaf_step _ _ _ R4 D) as [_ F]. { intros l Hl ->. apply NC. auto. }
    rewrite Forall_forall in F. exact (F _ I j ls eq_refl).
Qed.

(** The port stays open. *)
Definition ajar (s : inner) : Prop :=
  (match loop (outer s) with PTest | PIter | PDown | PShut => is_open (outer s) = true | _ => True end) /\
  (owner (outer s) = OClose -> loop (outer s) = PGone) /\ sane s.
Lemma ajar_step s a s' l : ajar s -> iact s a = Some (s', l) -> ajar s'.
Proof.
  intros (A & B & Sa) H. pose proof (proj1 (sane_step _ _ _ _ Sa H)) as Sa'. split; [|split; [|exact Sa']]; clear Sa'; destruct Sa as (_ & _ & Wi); apply iact_kind in H;
  destruct H as [i0 e0 x l Wo1 Lp Em H|i0 Wo1 Lp Rd Em|i0 e0 Wo1 Lp|j w0 e0 x l N H|x l H|x l H|w0 e0 x l Wo1 H|Wo1 W|Wo1 W|Wo1 W|p Wo1 W]; cbn [outer base up is_open loop owner with_loop]; auto;
  try (now (apply life_write_shape in H as (E1 & E2 & E3 & E4 & _); rewrite ?E2, ?E3, ?E4; auto)).
  - unfold loop_step in H. cbv zeta in H. destruct (loop (outer s)) eqn:L; try discriminate; try (now (break_step H; cbn; auto)).
  - unfold close_step in H. break_step H; cbn; auto. destruct (loop (outer s)); auto; discriminate B; auto.
  - unfold connect_step in H. break_step H; cbn; auto.
  - rewrite Wo1 in Wi. destruct Wi as [Wi _]. rewrite Wi in A. auto.
  - destruct (within s) eqn:Ws; try congruence; auto. destruct Wi as [Wi _]. rewrite Wi in A. destruct p; auto.
  - unfold loop_step in H. cbv zeta in H. intro O. destruct (loop (outer s)) eqn:L; try discriminate; try (now (break_step H; cbn in *; auto; discriminate B; auto)).
  - unfold close_step in H. break_step H; cbn; auto; discriminate.
  - unfold connect_step in H. break_step H; cbn; auto; discriminate.
  - rewrite Wo1 in Wi. destruct Wi as [Wi _]. intro O. rewrite B in Wi by auto. discriminate.
  - intro O. destruct (within s); try congruence. destruct Wi as [Wi _]. rewrite B in Wi by auto. discriminate.
Qed.
Lemma ajar_run tr s : irun i_init tr s -> ajar s.
Proof.
  intro R. destruct (irun_inv ajar (fun _ => True) (fun _ => True)) with (s := i_init) (tr := tr) (s' := s) as [K _]; auto.
  - intros. split; auto. eapply ajar_step; eauto.
  - split; [reflexivity|]. split; [discriminate|]. apply (sane_run [] i_init). constructor.
Qed.
Definition stays (s : inner) : Prop :=
  is_open (outer s) = true /\ owner (outer s) = OIdle /\
  ((within s = InNote /\ up (outer s) = false) \/ (within s = Outside /\ (loop (outer s) = PTest /\ up (outer s) = false \/ loop (outer s) = PGone))).
Lemma stays_step s a s' l : sane s /\ stays s -> untouched l -> iact s a = Some (s', l) -> (sane s' /\ stays s') /\ True.
Proof.
  intros (Sa & A & O & P) (N1 & N2 & N3) H. split; auto. split; [exact (proj1 (sane_step _ _ _ _ Sa H))|]. destruct Sa as (_ & _ & Wi). apply iact_kind in H. unfold stays.
  destruct H as [i0 e0 x l Wo1 Lp Em H|i0 Wo1 Lp Rd Em|i0 e0 Wo1 Lp|j w0 e0 x l N H|x l H|x l H|w0 e0 x l Wo1 H|Wo1 W|Wo1 W|Wo1 W|p Wo1 W]; cbn [outer within base up is_open loop owner with_loop].
  - destruct P as [[P _]|[_ P]]; [congruence|]. unfold loop_step in H. destruct P as [[P U]|P]; rewrite P in H; [|discriminate]. rewrite U in H. injection H as <- <-. cbn. auto 6.
  - destruct P as [[P _]|[_ [[P _]|P]]]; congruence.
  - destruct P as [[P _]|[_ [[P _]|P]]]; congruence.
  - apply life_write_shape in H as (E1 & E2 & E3 & E4 & _); rewrite ?E1, ?E2, ?E3, ?E4; auto.
  - unfold close_step in H. rewrite O in H. injection H as <- <-. congruence.
  - unfold connect_step in H. break_step H. congruence.
  - apply life_write_shape in H as (E1 & E2 & E3 & E4 & _); rewrite ?E1, ?E2, ?E3, ?E4; auto.
  - split; auto. split; auto. destruct P as [[P _]|[P _]]; [auto|congruence].
  - split; auto. split; auto. destruct P as [[P U]|[P _]]; [auto 6|congruence].
  - destruct P as [[P _]|[P _]]; congruence.
  - split; auto. split; auto. destruct P as [[P _]|[P _]]; [|congruence]. rewrite P. destruct p; [congruence|auto 6].
Qed.
Theorem inside_open tr0 s s1 tr s' : irun i_init tr0 s -> within s = InNote -> owner (outer s) = OIdle -> iact s InClose = Some (s1, INoJoin) ->
  irun s1 tr s' -> Forall untouched (ilabels tr) -> is_open (outer s') = true.
Proof.
  intros R0 W O H R F. pose proof (ajar_run _ _ R0) as (A & _ & Sa).
  destruct (irun_inv (fun s => sane s /\ stays s) (fun _ => True) untouched stays_step _ _ _ R) as [[_ (K & _)] _]; auto.
  - split; [exact (proj1 (sane_step _ _ _ _ Sa H))|]. destruct Sa as (_ & _ & Wi). rewrite W in Wi. destruct Wi as [Wi _]. rewrite Wi in A.
    apply iact_kind in H. inversion H; subst. unfold stays. cbn. auto 6.
  - rewrite Forall_forall in F. auto.
Qed.

(** ** Lines of a notification whose callback raised come again *)
Lemma notif_grows s tr s' : irun s tr s' -> ~ In IReturn (ilabels tr) -> exists more, notif (base (outer s')) = notif (base (outer s)) ++ more.
Proof.
  induction 1 as [s|s tr s' a l s'' R IH H]; intro N; [exists []; rewrite app_nil_r; auto|].
  rewrite ilabels_app in N. destruct IH as [more E]. { intro I. apply N, in_app_iff. auto. }
  assert (Nl : l <> IReturn). { intros ->. apply N, in_app_iff. cbn. auto. }
  enough (exists m2, notif (base (outer s'')) = notif (base (outer s')) ++ m2) as [m2 E2] by (exists (more ++ m2); rewrite E2, E, app_assoc; auto).
  assert (Same : forall b, notif b = notif (base (outer s')) -> exists m2, notif b = notif (base (outer s')) ++ m2). { intros b Eb. exists []. rewrite app_nil_r. auto. }
  assert (Wr : forall i w e x l, life_write (outer s') i w e = Some (x, l) -> notif (base x) = notif (base (outer s'))).
  { intros i w e x k X. apply life_write_shape in X as (_ & _ & _ & _ & _ & [(j & -> & W & _)|(b & -> & -> & _)]); auto. unfold write_step in W. cbv zeta in W. break_step W; auto. }
  apply iact_kind in H. destruct H as [i0 e0 x l Wo1 Lp Em H|i0 Wo1 Lp Rd Em|i0 e0 Wo1 Lp|j w0 e0 x l N0 H|x l H|x l H|w0 e0 x l Wo1 H|Wo1 W|Wo1 W|Wo1 W|p Wo1 W]; cbn [outer base with_loop]; try congruence;
    try (now (apply Same; auto)); try (now (apply Same; eauto)).
  - unfold loop_step in H. cbv zeta in H. destruct (loop (outer s')) eqn:L; try discriminate; try (now (break_step H; apply Same; auto)).
    destruct (match reader (base (outer s')) with RIdle _ | RNote2 => true | _ => false end && e0) eqn:U; [injection H as <- <-; apply Same; auto|].
    destruct (read_step _ _) as [[b k]|] eqn:Rs; [|discriminate]. injection H as <- <-. cbn [base]. unfold read_step in Rs. cbv zeta in Rs.
    destruct (reader (base (outer s'))) eqn:Rd; try (now (break_step Rs; apply Same; auto)).
    + injection Rs as <- <-. cbn. eauto.
    + cbn in U. rewrite Em in Rs by auto. injection Rs as <- <-. apply Same. auto.
  - unfold close_step in H. break_step H; apply Same; auto.
  - unfold connect_step in H. break_step H; apply Same; auto.
Qed.
Theorem inside_again tr s a ls b p c ls2 d : irun i_init tr s ->
  ilabels tr = a ++ IL (LBase (LCallback ls)) :: b ++ IExn p :: c ++ IL (LBase (LCallback ls2)) :: d -> ~ In IReturn b -> ~ In IReturn c ->
  exists more, ls2 = ls ++ more.
Proof.
  intros R E Nb Nc. apply ilabels_split in E as (ta & y & tb & -> & <- & E2). apply irun_split in R as (m & R1 & R2). apply irun_cons_inv in R2 as (m' & H & R2). cbn in H.
  rewrite app_comm_cons, app_assoc in E2. apply ilabels_split in E2 as (tc & z & td & -> & E3 & E4). apply irun_split in R2 as (n & R3 & R4). apply irun_cons_inv in R4 as (n' & H' & R4). cbn in H'.
  assert (C : forall s a s' ls, iact s a = Some (s', IL (LBase (LCallback ls))) -> ls = notif (base (outer s)) /\ notif (base (outer s')) = notif (base (outer s))).
  { clear. intros s a s' ls H. apply iact_kind in H. inversion H as [i0 e0 x l Wo1 Lp Em H1| | |j w0 e0 x l N H1|x l H1|x l H1|w0 e0 x l Wo1 H1| | | |]; subst; auto.
    - unfold loop_step in H1. cbv zeta in H1. destruct (loop (outer s)) eqn:L; try discriminate; try (now (destruct (up (outer s)); discriminate)).
      destruct (match reader (base (outer s)) with RIdle _ | RNote2 => true | _ => false end && e0) eqn:U; [discriminate|].
      destruct (read_step _ _) as [[b k]|] eqn:Rs; [|discriminate]. injection H1 as <- ->. unfold read_step in Rs. cbv zeta in Rs.
      destruct (reader (base (outer s))) eqn:Rd; try (now (break_step Rs)). cbn in U. rewrite Em in Rs by auto. discriminate.
    - apply life_write_shape in H1 as (_ & _ & _ & _ & _ & [(k & E & W & _)|(b & E & _)]); [|discriminate]. injection E as <-. unfold write_step in W. cbv zeta in W. break_step W.
    - unfold close_step in H1. break_step H1.
    - unfold connect_step in H1. break_step H1.
    - apply life_write_shape in H1 as (_ & _ & _ & _ & _ & [(k & E & W & _)|(b & E & _)]); [|discriminate]. injection E as <-. unfold write_step in W. cbv zeta in W. break_step W. }
  destruct (C _ _ _ _ H) as [-> E5]. destruct (C _ _ _ _ H') as [-> _]. destruct (notif_grows _ _ _ R3) as [more ->].
  { rewrite E3. intro I. apply in_app_iff in I as [I|[I|I]]; [auto|discriminate|auto]. }
  exists more. rewrite E5. auto.
Qed.

(** ** connect() in the error callback *)
Lemma pending_put ts : forall k t x, nth_error ts k = Some t -> fst t = PFatal -> fst x = PGone -> pending ts = S (pending (put_nth k x ts)).
Proof.
  induction ts as [|u ts IH]; intros [|k] t x N F G; try discriminate; cbn in N.
  - injection N as ->. unfold pending. cbn. rewrite F, G. reflexivity.
  - unfold pending in *. cbn. destruct (match fst u with PFatal => true | _ => false end); cbn; rewrite (IH _ _ _ N F G); auto.
Qed.
Lemma pending_app a b : pending (a ++ b) = (pending a + pending b)%nat.
Proof. unfold pending. rewrite filter_app, app_length. reflexivity. Qed.
Lemma put_Forall {A} (P : A -> Prop) l : forall k x, Forall P l -> P x -> Forall P (put_nth k x l).
Proof. induction l as [|y l IH]; intros [|k] x F Px; cbn; auto; inversion F; subst; constructor; auto. Qed.
Lemma put_front {A} (l r : list A) : forall k x, (k < length l)%nat -> put_nth k x (l ++ r) = put_nth k x l ++ r.
Proof. induction l as [|y l IH]; intros [|k] x H; cbn in *; try lia; auto. rewrite IH by lia. reflexivity. Qed.
Lemma fatals_app a b : fatals (a ++ b) = (fatals a + fatals b)%nat.
Proof. unfold fatals. rewrite filter_app, app_length. reflexivity. Qed.
Theorem reconnects tr s : crun c_init tr s -> when_down tr ->
  exists tr', lrun l_init tr' (seen_by s (last (threads s) nobody)) /\
    but_fatal (llabels tr') = but_fatal (map snd (clabels tr)) /\
    fatals (llabels tr') = (fatals (map snd (clabels tr)) + pending (removelast (threads s)))%nat.
Proof.
  intros R O.
  enough (K : reader (shared s) = RIdle [] /\ exists ts t, threads s = ts ++ [t] /\ Forall (fun t => fst t = PGone \/ fst t = PFatal) ts /\
    exists tr', lrun l_init tr' (seen_by s t) /\ but_fatal (llabels tr') = but_fatal (map snd (clabels tr)) /\
      fatals (llabels tr') = (fatals (map snd (clabels tr)) + pending ts)%nat).
  { destruct K as (_ & ts & t & E & _ & tr' & L & B & F). exists tr'. rewrite E, last_last, removelast_last. auto. }
  remember c_init as s0 eqn:E0. induction R as [s|s tr s' a l s'' R IH H].
  { subst. split; [reflexivity|]. exists [], (PTest, RIdle []). split; [reflexivity|]. split; [constructor|]. exists []. repeat split; constructor. }
  subst s. destruct IH as (IR & ts & t & ET & F & tr' & L & B & N); auto.
  { intros tr1 l1 tr2 s1 E. apply (O tr1 l1 (tr2 ++ [(a, l)]) s1). rewrite E, <- app_assoc. reflexivity. }
  specialize (O tr l []). rewrite clabels_app, map_app. cbn [clabels map snd]. fold (clabels tr).
  assert (BF : forall x y, but_fatal (x ++ y) = but_fatal x ++ but_fatal y) by (intros; apply filter_app).
  assert (one : forall b x k t' ts', lact (seen_by s' t) b = Some (x, k) -> seen_by s'' t' = x -> snd l = k -> threads s'' = ts' ++ [t'] ->
    Forall (fun t => fst t = PGone \/ fst t = PFatal) ts' -> pending ts' = pending ts -> reader (shared s'') = RIdle [] ->
    reader (shared s'') = RIdle [] /\ exists ts t, threads s'' = ts ++ [t] /\ Forall (fun t => fst t = PGone \/ fst t = PFatal) ts /\
      exists tr', lrun l_init tr' (seen_by s'' t) /\ but_fatal (llabels tr') = but_fatal (map snd (clabels tr) ++ [snd l]) /\
        fatals (llabels tr') = (fatals (map snd (clabels tr) ++ [snd l]) + pending ts)%nat).
  { intros b x k t' ts' A Ex Ek Et F' P' RI. split; [exact RI|]. exists ts', t'. split; [exact Et|]. split; [exact F'|]. exists (tr' ++ [(b, k)]).
    split; [rewrite Ex; econstructor; eauto|]. rewrite llabels_app, !BF, !fatals_app, B, N, Ek, P'. cbn [llabels map snd]. split; [reflexivity|lia]. }
  destruct a as [k i e|i w e| |]; cbn [cact] in *.
  - destruct (nth_error (threads s') k) as [t'|] eqn:Nk; [|discriminate]. destruct (loop_step (seen_by s' t') i e) as [[x lb]|] eqn:LS; [|discriminate].
    injection H as <- <-. rewrite ET in Nk. destruct (Nat.lt_ge_cases k (length ts)) as [Lk|Lk].
    { rewrite nth_error_app1 in Nk by auto. pose proof Nk as Ni. apply nth_error_In in Nk. rewrite Forall_forall in F. destruct (F _ Nk) as [G|G].
      { unfold loop_step, seen_by in LS. cbn in LS. rewrite G in LS. discriminate. }
      unfold loop_step in LS. unfold seen_by at 1 in LS. cbn [loop] in LS. rewrite G in LS. injection LS as <- <-. split; [reflexivity|].
      exists (put_nth k (PGone, snd t') ts), t. cbn [back threads loop base]. rewrite ET, put_front by auto. split; [reflexivity|].
      split; [apply put_Forall; [rewrite Forall_forall; auto|auto]|]. exists tr'. split.
      { unfold seen_by, back in *. cbn in *. exact L. }
      cbn [snd]. rewrite BF, fatals_app, B, N. pose proof (pending_put ts k t' (PGone, snd t') Ni G eq_refl) as PP. change (but_fatal [LFatal]) with (@nil llabel). change (fatals [LFatal]) with 1%nat.
      rewrite app_nil_r. split; [reflexivity|]. cbn [seen_by base reader set_reader] in *. rewrite PP, <- Nat.add_assoc. reflexivity. }
    rewrite nth_error_app2 in Nk by auto. destruct (k - length ts)%nat as [|d] eqn:D; cbn in Nk; [|destruct d; discriminate]. injection Nk as ->.
    assert (k = length ts) as -> by lia.
    apply (one (DRead i e) x lb (loop x, reader (base x)) ts); auto.
    + unfold seen_by, back. cbn. destruct x as [b u o p w]. cbn. f_equal. unfold set_reader. destruct b; reflexivity.
    + cbn [back threads]. rewrite ET, put_last. reflexivity.
  - destruct (life_write (seen_by s' nobody) i w e) as [[x lb]|] eqn:LS; [|discriminate]. injection H as <- <-.
    apply (one (DWrite i w e) (mk_life (set_reader (base x) (snd t)) (up x) (is_open x) (fst t) (owner x)) lb t ts); auto. cbn [lact].
    unfold seen_by in *. cbn [fst snd nobody] in *. rewrite (life_write_view (shared s') (snd t) (RIdle []) _ _ (fst t) PGone), LS. reflexivity.
  - rewrite ET, last_last in H. destruct (close_step (seen_by s' t)) as [[x lb]|] eqn:LS; [|discriminate]. injection H as <- <-.
    apply (one DClose x lb t ts); auto. unfold close_step in LS. cbv zeta in LS. unfold seen_by in *. cbn in *. break_step LS; reflexivity.
  - destruct (c_owner s') eqn:Ow; try discriminate. injection H as <- <-. cbn [snd threads]. specialize (O s' eq_refl R). rewrite ET in O. apply Forall_app in O as [_ O]. inversion O as [|? ? Pt _]; subst.
    split; [exact IR|]. exists (ts ++ [t]), (PTest, RIdle []). rewrite ET. split; [reflexivity|]. split; [apply Forall_app; auto|].
    destruct Pt as [Pt|Pt].
    + exists (tr' ++ [(DConnect, LConnect)]). split.
      { econstructor; [exact L|]. cbn [lact]. unfold connect_step, seen_by. cbn. rewrite Ow, Pt. reflexivity. }
      assert (P1 : pending [t] = 0%nat) by (unfold pending; cbn; rewrite Pt; reflexivity).
      rewrite llabels_app, !BF, !fatals_app, B, N, pending_app, P1. split; [reflexivity|]. change (fatals [LConnect]) with 0%nat. change (fatals (llabels [(DConnect, LConnect)])) with 0%nat. rewrite !Nat.add_0_r. reflexivity.
    + exists ((tr' ++ [(DRead (mk_rin None true) false, LFatal)]) ++ [(DConnect, LConnect)]). split.
      { econstructor; [econstructor; [exact L|]|].
        - cbn [lact]. unfold loop_step, seen_by. cbn [loop]. rewrite Pt. reflexivity.
        - cbn [lact]. unfold connect_step. cbn. rewrite Ow. reflexivity. }
      assert (P1 : pending [t] = 1%nat) by (unfold pending; cbn; rewrite Pt; reflexivity).
      rewrite !llabels_app, !BF, !fatals_app, B, N, pending_app, P1. split; [cbn; rewrite app_nil_r; reflexivity|]. change (fatals [LConnect]) with 0%nat. change (fatals (llabels [(DConnect, LConnect)])) with 0%nat.
      change (fatals (llabels [(DRead (mk_rin None true) false, LFatal)])) with 1%nat. rewrite !Nat.add_0_r, Nat.add_assoc. reflexivity.
Qed.

(** ** Executions by computation *)
Fixpoint iexec (s : inner) (l : list iaction) : option (list (iaction * ilabel) * inner) :=
  match l with
  | [] => Some ([], s)
  | a :: r => match iact s a with
              | Some (s', k) => match iexec s' r with Some (tr, s'') => Some ((a, k) :: tr, s'') | None => None end
              | None => None
              end
  end.
Lemma iexec_run l : forall s tr s', iexec s l = Some (tr, s') -> irun s tr s'.
Proof.
  induction l as [|a l IH]; intros s tr s' H; cbn in H.
  - injection H as <- <-. constructor.
  - destruct (iact s a) as [[s1 k]|] eqn:A; [|discriminate]. destruct (iexec s1 l) as [[t x]|] eqn:B; [|discriminate]. injection H as <- <-.
    change ((a, k) :: t) with ([(a, k)] ++ t). eapply irun_join; [|eauto]. apply (irun_snoc s [] s a k s1); [constructor|auto].
Qed.

Definition rd (c : Z) : iaction := OAct (DRead (mk_rin (Some c) true) false).
(** a line arrives; [now]: nothing follows *)
Definition arrives (line : str) (now : bool) : list iaction :=
  flat_map (fun c => [rd c; rd c; rd c]) (line ++ [13]) ++ [rd 10; rd 10; rd 10; rd 10; OAct (DRead (mk_rin None now) false)].
(** the callback, or another thread, makes this many steps of write() *)
Definition asks (data : str) (timeout : bool) (n : nat) : list iaction := repeat (InWrite (mk_win (mk_wop data true None) timeout) false) n.
Definition other_asks (i : nat) (data : str) (timeout : bool) (n : nat) : list iaction := repeat (OAct (DWrite i (mk_win (mk_wop data true None) timeout) false)) n.
Definition shown (l : ilabel) : bool :=
  match l with
  | IL (LBase (LSend _ _ _)) | IL (LBase (LReturn _ _)) | IL (LBase (LTimeout _ _)) | IL (LBase (LCallback _))
  | IL LClosing | IL LClosed | IL LFatal | IL LConnect | IL LError | IReturn | IExn _ | INoJoin => true
  | _ => false
  end.
(** The answer comes as the next notification. *)
Theorem inside_late : exists tr s, irun i_init tr s /\ filter shown (ilabels tr) =
  [IL (LBase (LCallback [lit "RING"])); IL (LBase (LSend me (lit "AT+CLCC") true)); IL (LBase (LTimeout me [])); IReturn;
   IL (LBase (LCallback [lit "+CLCC: 1"; lit "OK"]))].
Proof.
  pose (l := arrives (lit "RING") true ++ asks (lit "AT+CLCC") true 11 ++ [InReturn] ++ arrives (lit "+CLCC: 1") false ++ arrives (lit "OK") true).
  destruct (iexec i_init l) as [[tr s]|] eqn:E; [|vm_compute in E; discriminate].
  exists tr, s. split; [eapply iexec_run; eauto|]. assert (K : match iexec i_init l with Some (tr, _) => filter shown (ilabels tr) | None => [] end =
    [IL (LBase (LCallback [lit "RING"])); IL (LBase (LSend me (lit "AT+CLCC") true)); IL (LBase (LTimeout me [])); IReturn;
     IL (LBase (LCallback [lit "+CLCC: 1"; lit "OK"]))]) by (vm_compute; reflexivity). rewrite E in K. exact K.
Qed.
