(** Proofs about threads that collect stored messages. *)
From Coq Require Import Permutation.
From Verif Require Import Base PduModel RegexModel ModemCore ModemSpec WriteProofs MonadProofs SendSpec SendProofs TrackSpec CoverageSpec CoverageProofs
  SmsModel StoreSpec StoreLemmas ReadProofs StoreProofs ListSpec ListProofs ProcessProofs StoreFinal HandlerModel HandlerSpec HandlerProofs CollectModel CollectSpec TrieProofs LangProofs.

(** ** Messages *)
Lemma reads_same mode content s s' : reads_as mode content s -> reads_as mode content s' -> s = s'.
Proof. intros R R'. apply (reads_ok _ _ _ (lit "OK")) in R, R'. congruence. Qed.
Lemma same_refl s : same_sms s s.
Proof. destruct s; cbn; auto. Qed.
Lemma same_sym s s' : same_sms s s' -> same_sms s' s.
Proof. destruct s, s'; cbn; intuition auto. Qed.
Lemma same_trans a b c : same_sms a b -> same_sms b c -> same_sms a c.
Proof. destruct a, b, c; cbn; intuition congruence. Qed.
Lemma marks_says mode c c' s : marks mode c c' -> (says mode c s <-> says mode c' s).
Proof.
  intros [->|(a & b & R & R' & S)]; [tauto|]. split; intros (x & X & E).
  - rewrite (reads_same _ _ _ _ X R) in E. exists b. split; auto. eapply same_trans; [apply same_sym|]; eauto.
  - rewrite (reads_same _ _ _ _ X R') in E. exists a. split; auto. eapply same_trans; eauto.
Qed.
Lemma marks_refl mode c : marks mode c c.
Proof. left. auto. Qed.
Lemma marks_trans mode a b c : marks mode a b -> marks mode b c -> marks mode a c.
Proof.
  intros [->|(x & y & R & R' & S)] [->|(x' & y' & Q & Q' & S')]; [left; auto|right; eauto 6|right; eauto 6|].
  right. rewrite (reads_same _ _ _ _ Q R') in S'. exists x, y'. split; auto. split; auto. eapply same_trans; eauto.
Qed.
Lemma marks_readable mode a b : marks mode a b -> readable mode a -> readable mode b.
Proof. intros [->|(x & y & R & R' & S)] H; auto. exists y. auto. Qed.
Lemma touched_refl mode c : touched mode c c.
Proof. intros m i. destruct (c m i); auto. apply marks_refl. Qed.
Lemma touched_same mode c c' : (forall m i, c' m i = c m i) -> touched mode c c'.
Proof. intros E m i. rewrite E. apply touched_refl. Qed.
Lemma touched_trans mode a b c : touched mode a b -> touched mode b c -> touched mode a c.
Proof.
  intros H K m i. specialize (H m i). specialize (K m i). destruct (a m i), (b m i), (c m i); auto; try contradiction. eapply marks_trans; eauto.
Qed.
Lemma touched_put mode a b m i x : touched mode a b -> touched mode (put a m i x) (put b m i x).
Proof. intros H m' j. unfold put. destruct (same_cell m' j m i); [destruct x; auto; apply marks_refl|apply H]. Qed.
Lemma touched_none mode a b m i : touched mode a b -> (a m i = None <-> b m i = None).
Proof. intro H. specialize (H m i). destruct (a m i), (b m i); try contradiction; split; congruence. Qed.
Lemma touched_some mode a b m i c : touched mode a b -> a m i = Some c -> exists c', b m i = Some c' /\ marks mode c c'.
Proof. intros H E. specialize (H m i). rewrite E in H. destruct (b m i); [eauto|contradiction]. Qed.
Lemma touched_back mode a b m i c' : touched mode a b -> b m i = Some c' -> exists c, a m i = Some c /\ marks mode c c'.
Proof. intros H E. specialize (H m i). rewrite E in H. destruct (a m i); [eauto|contradiction]. Qed.

(** ** The device *)
Lemma serves_still mode d text r g d' : serves mode d text r g d' -> (forall ls, r = Lines ls -> ~ good_answer ls) -> g = [] /\ d' = d.
Proof.
  intros H N. destruct H as [text code r B|text r F|mem ls G' G|ds content c' D C T|ds ls D G|st p answer es c' S G De Nd I T|ls g G Nd I]; auto; exfalso; try (eapply N; eauto; fail).
  eapply N; eauto. exists content, (lit "OK"). split; auto. apply good_ok.
Qed.
Lemma serves_busy mode d text code r g d' : busy_reply code r -> serves mode d text r g d' -> g = [] /\ d' = d.
Proof. intros B H. eapply serves_still; eauto. eapply busy_no_good; eauto. Qed.
Lemma serves_failing mode d text r g d' : failing r -> serves mode d text r g d' -> g = [] /\ d' = d.
Proof. intros [_ F] H. eapply serves_still; eauto. Qed.
Lemma serves_inv mode d text r g d' : serves mode d text r g d' -> forall ls, r = Lines ls -> good_answer ls ->
  (exists mem, ~ In 34 mem /\ text = lit "AT+CPMS=" ++ 34 :: mem ++ [34; 13] /\ g = [] /\ d' = mk_device mem (stored d)) \/
  (exists ds content c', digits ds /\ text = lit "AT+CMGR=" ++ ds ++ [13] /\ stored d (sel d) (dec_value ds) = Some content /\ ls = content ++ [lit "OK"] /\
     g = [] /\ touched mode (stored d) c' /\ d' = mk_device (sel d) c') \/
  (exists ds, digits ds /\ text = lit "AT+CMGD=" ++ ds ++ lit ",0" ++ [13] /\
     g = (match stored d (sel d) (dec_value ds) with Some content => [(dec_value ds, content)] | None => [] end) /\
     d' = mk_device (sel d) (put (stored d) (sel d) (dec_value ds) None)) \/
  (exists st p es c', status_param mode st p /\ text = lit "AT+CMGL=" ++ p ++ [13] /\ describes mode ls es /\ NoDup (map fst es) /\
     (forall i s, In (i, s) es <-> exists content, stored d (sel d) i = Some content /\ reads_as mode content s /\ (st = 4 \/ stat_of s = st)) /\
     g = [] /\ touched mode (stored d) c' /\ d' = mk_device (sel d) c') \/
  (text = lit "AT+CMGD=1,4" ++ [13] /\ NoDup (map fst g) /\ (forall i content, In (i, content) g <-> stored d (sel d) i = Some content) /\
     d' = mk_device (sel d) (wiped (stored d) (sel d))).
Proof.
  intros [text0 code r0 B|text0 r0 F|mem ls N G|ds content c' D C T|ds ls D G|st p answer es c' S G De Nd I T|ls g0 G Nd I] ls' E G'.
  - exfalso. eapply busy_no_good; eauto.
  - exfalso. eapply F; eauto.
  - left. eauto 6.
  - right. left. injection E as <-. exists ds, content, c'. auto 10.
  - right. right. left. eauto 6.
  - right. right. right. left. injection E as <-. exists st, p, es, c'. auto 10.
  - right. right. right. right. auto.
Qed.
Ltac five G H := apply (serves_inv _ _ _ _ _ _ H _ eq_refl) in G as
  [(mem' & N' & E & -> & ->)|[(ds' & content & c' & [N' F'] & E & C & -> & -> & T & ->)|[(ds' & [N' F'] & E & -> & ->)|[(st' & p' & es & c' & Sp & E & De & Nd & I & -> & T & ->)|(E & Nd & I & ->)]]]];
  try (exfalso; discriminate E).
Lemma select_serves mode d mem ls g d' : ~ In 34 mem -> good_answer ls -> serves mode d ((lit "AT+CPMS=""" ++ mem ++ lit """") ++ [13]) (Lines ls) g d' ->
  g = [] /\ d' = mk_device mem (stored d).
Proof.
  intros N G H. five G H. appn_in E. cbn in E. injection E as E. apply (noquote 34) in E as [-> _]; auto.
Qed.
Lemma read_serves mode d ds ls g d' : digits ds -> good_answer ls -> serves mode d ((lit "AT+CMGR=" ++ ds) ++ [13]) (Lines ls) g d' ->
  g = [] /\ exists content c', stored d (sel d) (dec_value ds) = Some content /\ ls = content ++ [lit "OK"] /\ touched mode (stored d) c' /\ d' = mk_device (sel d) c'.
Proof.
  intros [N F] G H. five G H. appn_in E. cbn in E. injection E as E. split; auto. exists content, c'. apply (nodigit 13) in E as [-> _]; auto.
Qed.
Lemma delete_serves mode d ds ls g d' : digits ds -> good_answer ls -> serves mode d ((lit "AT+CMGD=" ++ ds ++ lit ",0") ++ [13]) (Lines ls) g d' ->
  g = (match stored d (sel d) (dec_value ds) with Some content => [(dec_value ds, content)] | None => [] end) /\
  d' = mk_device (sel d) (put (stored d) (sel d) (dec_value ds) None).
Proof.
  intros [N F] G H. five G H; appn_in E; cbn in E; injection E as E.
  - apply (nodigit 44) in E as [-> _]; auto.
  - exfalso. apply (nodigit 44 ds (lit "0" ++ [13]) (lit "4" ++ [13]) F eq_refl [49]) in E as [_ E]; [discriminate E|repeat constructor].
Qed.
Lemma param_same mode st st' p : status_param mode st p -> status_param mode st' p -> st = st'.
Proof.
  destruct mode; cbn.
  - intros (n & S & ->) (n' & S' & E). injection E as E. apply app_inj_tail in E as [<- _]. apply status_named_eq in S, S'. congruence.
  - intros (_ & <- & _) (_ & <- & _). auto.
Qed.
Lemma command_param mode st command : 0 <= st -> list_command mode st = Some command -> exists p, status_param mode st p /\ command = lit "AT+CMGL=" ++ p.
Proof.
  intros Hs. unfold list_command, status_param. destruct mode.
  - destruct (status_text st) as [s|] eqn:St; cbn [option_map]; [|discriminate]. intros [= <-]. apply status_text_iff in St. exists (34 :: s ++ [34]). split; [eauto|reflexivity].
  - intros [= <-]. exists (str_of_Z st). split; auto. apply str_of_Z_decimal. auto.
Qed.
Lemma list_serves mode d st command ls g d' : 0 <= st -> list_command mode st = Some command -> good_answer ls -> serves mode d (command ++ [13]) (Lines ls) g d' ->
  g = [] /\ exists es c', describes mode ls es /\ NoDup (map fst es) /\
    (forall i s, In (i, s) es <-> exists content, stored d (sel d) i = Some content /\ reads_as mode content s /\ (st = 4 \/ stat_of s = st)) /\
    touched mode (stored d) c' /\ d' = mk_device (sel d) c'.
Proof.
  intros Hs Hc G H. apply command_param in Hc as (p & Pa & ->); auto. five G H. appn_in E. cbn in E. injection E as E. apply app_inj_tail in E as [-> _].
  rewrite (param_same _ _ _ _ Pa Sp) in *. split; auto. exists es, c'. auto 6.
Qed.
Lemma wipe_serves mode d ls g d' : good_answer ls -> serves mode d (lit "AT+CMGD=1,4" ++ [13]) (Lines ls) g d' ->
  NoDup (map fst g) /\ (forall i content, In (i, content) g <-> stored d (sel d) i = Some content) /\ d' = mk_device (sel d) (wiped (stored d) (sel d)).
Proof.
  intros G H. five G H; auto. exfalso. cbn in E. injection E as E. apply (nodigit 44 [49] (lit "4" ++ [13]) (lit "0" ++ [13])) with (ds' := ds') in E as [_ E]; [discriminate E| |auto|auto].
  repeat constructor.
Qed.

(** ** Listings *)
Lemma describes_taken mode answer es : describes mode answer es -> taken mode answer es.
Proof. destruct mode; cbn; auto. apply well_formed_taken. Qed.
Lemma add_del_new is : forall d, NoDup (d ++ is) -> fold_left add_del is d = d ++ is.
Proof.
  induction is as [|i is IH]; intros d N; [rewrite app_nil_r; auto|]. cbn [fold_left].
  assert (E : add_del d i = d ++ [i]).
  { unfold add_del. destruct (existsb (Z.eqb i) d) eqn:X; auto. apply existsb_exists in X as (j & J & X). apply Z.eqb_eq in X. subst j.
    apply NoDup_remove_2 in N. exfalso. apply N. apply in_app_iff. auto. }
  rewrite E, IH; rewrite <- app_assoc; auto.
Qed.
Lemma describes_lines mode answer es : describes mode answer es -> NoDup (map fst es) -> list_lines mode answer = Ok (map snd es, map fst es).
Proof.
  intros D N. apply describes_taken, taken_parse in D. change (list_lines mode answer) with (parse_list mode answer). rewrite D. unfold ext. cbn [fst snd app].
  rewrite add_del_new; auto.
Qed.
Lemma describes_nonneg mode answer es : describes mode answer es -> Forall (fun e => 0 <= fst e) es.
Proof. intro D. eapply taken_nonneg. apply describes_taken. eauto. Qed.
Lemma combine_split (es : list (Z * stored_sms)) : combine (map fst es) (map snd es) = es.
Proof. induction es as [|[i s] es IH]; cbn; congruence. Qed.

(** ** The ledger *)
Lemma ledger_touch mode c c1 obs c' : touched mode c c1 -> ledger mode c1 obs c' -> ledger mode c obs c'.
Proof.
  intros T L. revert c T. induction L as [a b T1|a a1 mem i x obs b T1 E L IH|a a1 mem i x obs b T1 E L IH|a o obs b O L IH]; intros c T.
  - constructor. eapply touched_trans; eauto.
  - eapply lg_came; [eapply touched_trans; eauto|auto|auto].
  - eapply lg_gone; [eapply touched_trans; eauto|eauto|auto].
  - apply lg_other; auto.
Qed.
Lemma ledger_app mode a b c c1 c' : ledger mode c a c1 -> ledger mode c1 b c' -> ledger mode c (a ++ b) c'.
Proof.
  intros L. revert b c'. induction L; intros obs2 c2 L2; cbn [app]; [eapply ledger_touch; eauto|eapply lg_came; eauto|eapply lg_gone; eauto|apply lg_other; auto].
Qed.
Definition other (o : seen) : Prop := match o with Came _ _ _ | Gone _ _ _ => False | _ => True end.
Lemma ledger_other mode obs c c' : Forall other obs -> touched mode c c' -> ledger mode c obs c'.
Proof. induction 1; intro T; [constructor; auto|apply lg_other; auto]. Qed.
Lemma ledger_gone mode mem g : NoDup (map fst g) -> forall c c', (forall i content, In (i, content) g -> c mem i = Some content) ->
  (forall m i, c' m i = if str_eqb m mem && existsb (Z.eqb i) (map fst g) then None else c m i) ->
  ledger mode c (map (fun e => Gone mem (fst e) (snd e)) g) c'.
Proof.
  induction g as [|[i content] g IH]; intros N c c' H E; cbn [map fst snd] in *.
  - constructor. apply touched_same. intros m j. rewrite E. cbn [existsb]. rewrite andb_false_r. auto.
  - inversion N as [|? ? N1 N2]. subst. eapply lg_gone; [apply touched_refl|apply H; left; auto|]. apply IH; auto.
    + intros j x J. unfold put. destruct (same_cell mem j mem i) eqn:S; [|apply H; right; auto]. apply same_cell_index in S. subst j. exfalso. apply N1.
      apply (in_map fst) in J. auto.
    + intros m j. rewrite E. unfold put, same_cell. cbn [existsb]. destruct (str_eqb m mem), (j =? i), (existsb (Z.eqb j) (map fst g)); auto.
Qed.
Lemma serves_ledger mode d text r g d' : serves mode d text r g d' -> ledger mode (stored d) (map (fun e => Gone (sel d) (fst e) (snd e)) g) (stored d').
Proof.
  intros [text0 code r0 B|text0 r0 F|mem ls N G|ds content c' D C T|ds ls D G|st p answer es c' S G De Nd I T|ls g0 G Nd I]; cbn [map stored]; try (constructor; auto using touched_refl; fail).
  - destruct (stored d (sel d) (dec_value ds)) as [content|] eqn:E; cbn [map fst snd].
    + eapply lg_gone; [apply touched_refl|eauto|]. constructor. apply touched_refl.
    + constructor. apply touched_same. intros m i. unfold put. destruct (same_cell m i (sel d) (dec_value ds)) eqn:S; auto. unfold same_cell in S.
      apply andb_true_iff in S as [S1 S2]. destruct (str_eqb_spec m (sel d)); [|discriminate]. apply Z.eqb_eq in S2. subst. auto.
  - apply ledger_gone; auto.
    + intros i content J. apply I. auto.
    + intros m i. unfold wiped. destruct (str_eqb_spec m (sel d)) as [->|]; cbn [andb]; auto. destruct (existsb (Z.eqb i) (map fst g0)) eqn:X; auto.
      destruct (stored d (sel d) i) as [content|] eqn:E; auto. apply I in E. apply (in_map fst) in E. exfalso. assert (existsb (Z.eqb i) (map fst g0) = true); [|congruence].
      apply existsb_exists. exists i. split; auto. apply Z.eqb_refl.
Qed.
Lemma others_told l : Forall other (map Told l).
Proof. apply Forall_forall. intros o I. apply in_map_iff in I as (s & <- & _). exact Logic.I. Qed.
Lemma others_dropped (b : bool) l : Forall other (if b then map Dropped l else []).
Proof. destruct b; [|constructor]. apply Forall_forall. intros o I. apply in_map_iff in I as (s & <- & _). exact Logic.I. Qed.
Theorem store_explained mode P s obs s' : evolves mode P s obs s' -> ledger mode (stored (machine s)) obs (stored (machine s')).
Proof.
  induction 1 as [|obs s1 a s2 H IH St _]; [constructor; apply touched_refl|]. eapply ledger_app; [exact IH|]. clear H IH obs.
  destruct St as [attr d ts mem ds content nf N Q D E|attr d ts c E N|before t after attr d said attr' t' T|before t after attr d text r g d' said attr' t' T Sv]; cbn [machine stored].
  - eapply lg_came; [apply touched_refl|auto|]. constructor. apply touched_refl.
  - apply ledger_other; [repeat constructor|apply touched_refl].
  - apply ledger_other; [apply others_told|apply touched_refl].
  - eapply ledger_app; [eapply serves_ledger; eauto|]. apply ledger_other; [apply Forall_app; split; [apply others_told|apply others_dropped]|apply touched_refl].
Qed.
