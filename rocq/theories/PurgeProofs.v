(** deleteMultipleStoredSms against a modem whose messages have a status. *)
From Verif Require Import Base RegexModel RegexProofs DateModel UtilModel TrieProofs PduModel ModemCore ModemSpec WriteProofs MonadProofs SmsModel SendSpec SendProofs TrackSpec StoreLemmas TrackProofs LangProofs CoverageSpec CoverageProofs StoreSpec ReadProofs StoreProofs PurgeSpec.

Lemma minded_app a : forall b k k', minded k (a ++ b) k' <-> exists k1, minded k a k1 /\ minded k1 b k'.
Proof.
  induction a as [|e a IH]; intros b k k'; cbn [app].
  - split; [intro H; exists k; split; auto; constructor|intros (k1 & H1 & H2); inversion H1; subst; auto].
  - split.
    + intro H. inversion H as [|text r evs k1 k2 A P|t evs k2 P]; subst; apply IH in P as (k3 & P1 & P2); exists k3; split; auto; [econstructor; eauto|constructor; auto].
    + intros (k1 & H1 & H2). inversion H1; subst; [econstructor; eauto|constructor]; apply IH; eauto.
Qed.
Lemma minded_pause w k k' : minded k (pause w) k' -> k' = k.
Proof. unfold pause. destruct (0 <? w); intro H; inversion H as [| |? ? ? P]; subst; auto. inversion P; auto. Qed.
Lemma minds_still k text r k' : minds k text r k' -> (forall ls, r = Lines ls -> ~ good_answer ls) -> k' = k.
Proof. intros [text0 code r0 B|text0 r0 F|mem ls N' G|ds ls D G|ds flag ls D B G] N; auto; exfalso; eapply N; eauto. Qed.
Lemma minded_attempts text busy codes : all_busy busy codes -> forall wait r k k', minded k (attempts text wait busy r) k' -> minds k text r k'.
Proof.
  induction 1 as [|b c busy codes B F IH]; intros wait r k k' P; cbn [attempts] in P.
  - inversion P as [|? ? ? k1 ? A R|]; subst. destruct r; [apply minded_pause in R; subst; auto|]. inversion R; subst. auto.
  - inversion P as [|? ? ? k1 ? A R|]; subst. apply minds_still in A; [|eapply busy_no_good; eauto]. subst.
    apply minded_app in R as (k2 & P1 & P2). apply minded_pause in P1. subst. inversion P2; subst. eauto.
Qed.
Lemma write_minded data w x w' : write data w = Done x w' ->
  exists evs, trace w' = trace w ++ evs /\ (exists v, dev w' = set_writeWait v (dev w)) /\
    forall k k', minded k evs k' -> match x with Ok ls => good_answer ls /\ minds k (data ++ [13]) (Lines ls) k' | Err _ => k' = k /\ failures evs end.
Proof.
  intro H. apply write_done in H as (busy & codes & r & E & B & NB & O & D & T).
  exists (attempts (data ++ CR) (writeWait (dev w)) busy r). split; auto. split; [eauto|].
  intros k k' P. apply (minded_attempts _ _ _ B) in P. destruct x as [ls|e]; cbn.
  - apply outcome_ok in O as [-> (l0 & l & -> & G)]. split; auto. exists l0, l. auto.
  - pose proof (outcome_err_failing _ _ _ O NB) as F. split; [eapply minds_still; eauto; apply F|].
    exists (data ++ CR), r. split; auto. apply attempts_has.
Qed.
Lemma minds_inv k text r k' : minds k text r k' -> forall ls, r = Lines ls -> good_answer ls ->
  (exists mem, ~ In 34 mem /\ text = lit "AT+CPMS=" ++ 34 :: mem ++ [34; 13] /\ k' = mk_keeper mem (kept k)) \/
  (exists ds, digits ds /\ text = lit "AT+CMGD=" ++ ds ++ lit ",0" ++ [13]) \/
  (exists ds flag, digits ds /\ 1 <= flag <= 4 /\ text = lit "AT+CMGD=" ++ ds ++ 44 :: [48 + flag; 13] /\ k' = mk_keeper (chosen k) (purged (kept k) (chosen k) flag)).
Proof.
  intros [text0 code r0 B|text0 r0 F|mem ls N G|ds ls D G|ds flag ls D B G] ls' E G'.
  - exfalso. eapply busy_no_good; eauto.
  - exfalso. eapply F; eauto.
  - left. eauto.
  - right. left. eauto.
  - right. right. exists ds, flag. auto.
Qed.
Lemma select_minds k mem ls k' : ~ In 34 mem -> good_answer ls -> minds k ((lit "AT+CPMS=""" ++ mem ++ lit """") ++ [13]) (Lines ls) k' -> k' = mk_keeper mem (kept k).
Proof.
  intros N G H. apply (minds_inv _ _ _ _ H _ eq_refl) in G as [(mem' & N' & E & ->)|[(ds & _ & E)|(ds & flag & _ & _ & E & _)]]; try discriminate.
  appn_in E. cbn in E. injection E as E. apply (noquote 34) in E as [-> _]; auto.
Qed.
Lemma purge_minds k flag ls k' : 1 <= flag <= 4 -> good_answer ls -> minds k ((lit "AT+CMGD=1," ++ str_of_Z flag) ++ [13]) (Lines ls) k' ->
  k' = mk_keeper (chosen k) (purged (kept k) (chosen k) flag).
Proof.
  intros B G H. assert (S : str_of_Z flag = [48 + flag]).
  { assert (flag = 1 \/ flag = 2 \/ flag = 3 \/ flag = 4) as [->|[->|[->| ->]]] by lia; reflexivity. }
  rewrite S in H. apply (minds_inv _ _ _ _ H _ eq_refl) in G as [(mem' & _ & E & _)|[(ds & [N F] & E)|(ds & flag' & [N F] & B' & E & ->)]]; [discriminate| |].
  - exfalso. appn_in E. cbn in E. injection E as E. apply (nodigit 44 [49]) in E as [_ E]; auto. injection E as E. lia.
  - appn_in E. cbn in E. injection E as E. apply (nodigit 44 [49]) in E as [_ E]; auto. injection E as E. replace flag' with flag by lia. reflexivity.
Qed.
Lemma select_kept memory w x w' : (forall mem, memory = Some mem -> ~ In 34 mem) -> setSmsMemory memory None w = Done x w' ->
  exists evs, trace w' = trace w ++ evs /\
    forall k k', known (dev w) k -> minded k evs k' ->
      known (dev w') k' /\ kept k' = kept k /\ match x with Ok _ => chosen k' = match memory with Some mem => mem | None => chosen k end | Err _ => failures evs end.
Proof.
  intros Q H. unfold setSmsMemory in H. unfold mbind at 1, get in H. destruct memory as [mem|].
  - specialize (Q mem eq_refl). destruct (negb (opt_str_eqb (Some mem) (memRead (dev w)))) eqn:E.
    + apply bind_done in H as [(ls & w1 & H1 & H)|(e & H1 & ->)].
      * apply write_minded in H1 as (evs & T & (v & D) & Pl). unfold modify in H. injection H as <- <-. cbn [trace dev]. exists evs. split; auto.
        rewrite D. intros k k' S P. apply Pl in P as [G A]. apply select_minds in A as ->; auto. cbn. split; auto. intros y [= <-]. auto.
      * apply write_minded in H1 as (evs & T & (v & D) & Pl). exists evs. split; auto. rewrite D. intros k k' S P. apply Pl in P as [-> F]. auto.
    + unfold ret in H. injection H as <- <-. exists []. rewrite app_nil_r. split; auto. intros k k' S P. inversion P; subst.
      split; auto. split; auto. apply negb_false_iff in E. unfold opt_str_eqb in E. destruct (memRead (dev w)) as [y|] eqn:Y; [|discriminate].
      destruct (str_eqb_spec mem y); [subst|discriminate]. apply S; auto.
  - injection H as <- <-. exists []. rewrite app_nil_r. split; auto. intros k k' S P. inversion P; subst. auto.
Qed.

Lemma purge_by_status flag memory m sc x w k k' : (forall mem, memory = Some mem -> ~ In 34 mem) -> known m k ->
  deleteMultipleStoredSms flag memory (start m sc) = Done x w -> minded k (trace w) k' ->
  known (dev w) k' /\
  match x with
  | Ok _ => 1 <= flag <= 4 /\ forall mem' i, kept k' mem' i = purged (kept k) (match memory with Some mem => mem | None => chosen k end) flag mem' i
  | Err e => kept k' = kept k /\ (1 <= flag <= 4 /\ failures (trace w) \/ ~ (1 <= flag <= 4) /\ e = ValueError /\ trace w = [] /\ k' = k)
  end.
Proof.
  intros Q Sy H Pl. unfold deleteMultipleStoredSms in H. destruct ((0 <? flag) && (flag <=? 4)) eqn:B.
  - apply andb_true_iff in B as [B1 B2]. apply Z.ltb_lt in B1. apply Z.leb_le in B2. assert (B : 1 <= flag <= 4) by lia.
    apply bind_done in H as [([] & w1 & H1 & H)|(e & H1 & ->)].
    + apply (select_kept _ _ _ _ Q) in H1 as (e1 & T1 & S1). cbn [start trace dev app] in *.
      apply bind_done in H as [(ls & w2 & H2 & H)|(e & H2 & ->)]; apply write_minded in H2 as (e2 & T2 & (v & D2) & S2).
      * injection H as <- <-. rewrite T2, T1 in *. apply minded_app in Pl as (k1 & Pa & Pb). apply (S1 _ _ Sy) in Pa as (Kn & St & Se). apply S2 in Pb as [G A].
        apply (purge_minds _ _ _ _ B G) in A as ->. rewrite D2. split; [exact Kn|]. split; [exact B|]. intros mem' i. cbn [kept]. rewrite Se, St. reflexivity.
      * rewrite T2, T1 in *. apply minded_app in Pl as (k1 & Pa & Pb). apply (S1 _ _ Sy) in Pa as (Kn & St & Se). apply S2 in Pb as [-> F]. rewrite D2.
        split; [exact Kn|]. split; [exact St|]. left. split; [exact B|]. apply failures_app. auto.
    + apply (select_kept _ _ _ _ Q) in H1 as (e1 & T1 & S1). cbn [start trace dev app] in *. rewrite T1 in *. apply (S1 _ _ Sy) in Pl as (Kn & St & F).
      split; [exact Kn|]. split; [exact St|]. left. auto.
  - injection H as <- <-. cbn [start trace dev] in *. inversion Pl; subst. split; [exact Sy|]. split; auto. right. split; auto.
    apply andb_false_iff in B as [B|B]; [apply Z.ltb_ge in B|apply Z.leb_gt in B]; lia.
Qed.
(** in words: which messages are left *)
Lemma left_after flag c mem mem' i st content : 1 <= flag <= 4 ->
  purged c mem flag mem' i = Some (st, content) <->
  c mem' i = Some (st, content) /\ (mem' <> mem \/ flag = 1 /\ st <> 1 \/ flag = 2 /\ st <> 1 /\ st <> 3 \/ flag = 3 /\ st <> 1 /\ st <> 2 /\ st <> 3).
Proof.
  intros B. unfold purged, removes. destruct (c mem' i) as [[st' content']|]; [|split; [discriminate|intros [E _]; discriminate E]].
  destruct (str_eqb_spec mem' mem) as [->|N]; cbn [andb].
  - assert (flag = 1 \/ flag = 2 \/ flag = 3 \/ flag = 4) as [->|[->|[->| ->]]] by lia; cbn [Z.eqb Pos.eqb];
      repeat match goal with |- context [?a =? ?b] => destruct (Z.eqb_spec a b) end; cbn [orb]; split; intros H;
      try discriminate; try (injection H as -> ->); try (destruct H as [[= -> ->] H]); try split; auto; intuition (try lia; try congruence).
  - split; [intros E; split; auto|intros [E _]; exact E].
Qed.
