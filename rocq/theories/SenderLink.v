(** The handler of a delivery report on its own does what the method does. *)
From Verif Require Import Base RegexModel RegexProofs UtilModel PduModel ModemCore ModemSpec WriteProofs MonadProofs SmsModel SendSpec SendProofs LangProofs CoverageSpec CoverageProofs ReadProofs ModemFinal TrackSpec TrackProofs ConnectSpec ConnectProofs CentreProofs StoreLemmas WaitSpec WaitProofs SenderModel SenderSpec.

Definition seen (m : modem) := (smsRef m, sentObjs m, sentTable m, reportEvent m).
Lemma sees_seen m m' h : seen m' = seen m -> sees m h -> sees m' h.
Proof. unfold seen, sees. intro E. injection E as -> -> -> ->. auto. Qed.
Theorem report_is_method line mem idx m sc h u w : sees m h -> indication (lit "+CDSI:") mem idx line -> handleSmsStatusReport line (start m sc) = Done (Ok u) w ->
  exists st r nb t1 t2 code w1 h', readStoredSms idx (Some mem) (start m sc) = Done (Ok (Report st r nb t1 t2 code)) w1 /\
    alone_report r code h Lookup (length (told_reports (trace w))) h' (Handled (Ok tt)) /\ sees (dev w) h'.
Proof.
  intros Se I H. pose proof (report_event line mem idx (start m sc) I) as X. rewrite H in X. destruct X as (st & r & nb & t1 & t2 & code & w1 & w2 & R & De & _ & _ & T).
  exists st, r, nb, t1, t2, code, w1. unfold ev in T. cbn [dev start] in T.
  assert (N : told_reports (trace w2) = []).
  { destruct (told_only (readStoredSms idx (Some mem)) (start m sc)) as (e1 & T1 & N1); [unfold readStoredSms, setSmsMemory; only_tac; try (apply only_write; intros; exact Logic.I)|].
    destruct (told_only (deleteStoredSms idx None) w1) as (e2 & T2 & N2); [unfold deleteStoredSms, setSmsMemory; only_tac; try (apply only_write; intros; exact Logic.I)|].
    rewrite R in T1. rewrite De in T2. cbn [last_of trace start app] in T1, T2. rewrite T2, T1. unfold told_reports in *. rewrite flat_map_app, N1, N2. auto. }
  assert (Tl : told_reports (trace w) = match reportEvent m with None => [Report st r nb t1 t2 code] | Some _ => [] end).
  { rewrite T. unfold told_reports in *. rewrite flat_map_app, N. destruct (reportEvent m); auto. }
  rewrite Tl. clear T N Tl.
  assert (K : seen (dev w2) = seen m).
  { pose proof (keeps_read seen idx (Some mem) ltac:(reflexivity) ltac:(reflexivity) (start m sc)) as K1. rewrite R in K1.
    pose proof (keeps_delete seen idx None ltac:(reflexivity) ltac:(reflexivity) w1) as K2. rewrite De in K2. cbn [last_of dev start] in *. congruence. }
  assert (Em : reportEvent (dev w2) = reportEvent m) by (unfold seen in K; congruence).
  apply (sees_seen _ _ _ K) in Se. clear K.
  apply indication_match in I as (t & rest & E). rewrite <- cdsi_is in E. unfold handleSmsStatusReport in H. rewrite E in H.
  unfold group in H. cbn [groups fst snd nth Nat.sub] in H. unfold mbind at 1 in H. rewrite R in H. cbv beta iota in H. unfold mbind at 1 in H. rewrite De in H. cbv beta iota in H.
  destruct w2 as [m2 sc2 tr2]. cbn [dev] in *. unfold mbind, get, modify, tell, ret in H. cbn [dev] in H.
  destruct Se as (S1 & S2 & S3 & S4 & S5 & S6).
  set (h1 := match zget (sh_table h) r with Some obj => put_objs (update (sh_objs h) obj (fun s => mk_sent (s_number s) (s_text s) (s_reference s) (Some code))) h | None => h end).
  assert (A1 : forall told h2 st2, alone_report r code h1 Test told h2 st2 -> alone_report r code h Lookup told h2 st2).
  { intros told h2 st2 A. apply (ar_step r code _ _ false _ _ _ _ _ (rp_lookup r code h)). unfold h1 in A. destruct (zget (sh_table h) r) as [obj|] eqn:Z; auto.
    apply (ar_step r code _ _ false _ _ _ _ _ (rp_assign r code h obj Z)). exact A. }
  assert (Ev1 : sh_event h1 = sh_event h) by (unfold h1; destruct (zget (sh_table h) r); reflexivity).
  assert (A2 : match reportEvent m with
    | Some _ => exists e, sh_event h = Some e /\ alone_report r code h1 Test 0 (fire e h1) (Handled (Ok tt))
    | None => alone_report r code h1 Test 1 h1 (Handled (Ok tt)) end).
  { rewrite Em in S4. pose proof (rp_test r code h1) as P. rewrite Ev1 in P. destruct (reportEvent m).
    - destruct S4 as (e & Ee & _). exists e. split; auto. rewrite Ee in P. apply (ar_step r code _ _ false _ _ 0 _ _ P). eapply (ar_step r code _ _ false _ _ 0); [apply (rp_fire r code h1 e); rewrite Ev1; exact Ee|constructor].
    - rewrite S4 in P. apply (ar_step r code _ _ false _ _ 1 _ _ P). eapply (ar_step r code _ _ true _ _ 0); [apply rp_tell|constructor]. }
  exists (match sh_event h1 with Some e => fire e h1 | None => h1 end). split; [exact R|]. rewrite Ev1. rewrite Em in S4.
  assert (Sx : sh_ref h1 = sh_ref h /\ sh_table h1 = sh_table h /\ sh_set h1 = sh_set h /\ sh_made h1 = sh_made h) by (unfold h1; destruct (zget (sh_table h) r); auto).
  destruct Sx as (X1 & X2 & X3 & X4).
  assert (X5 : sh_objs h1 = match zget (sentTable m2) r with Some obj => update (sentObjs m2) obj (fun s => mk_sent (s_number s) (s_text s) (s_reference s) (Some code)) | None => sentObjs m2 end).
  { unfold h1. rewrite S3. destruct (zget (sentTable m2) r); cbn; rewrite ?S2; auto. }
  clearbody h1. destruct (reportEvent m) as [b|].
  - destruct A2 as (e & Ee & A2). replace (sh_event h) with (Some e) by auto. split; [exact (A1 _ _ _ A2)|].
    assert (Lt : (e < sh_made h)%nat) by (exact (S6 e Ee)).
    destruct (zget (sentTable m2) r) as [obj|]; cbn [dev] in H; rewrite ?Em in H; cbn [reportEvent set_sentObjs] in H; rewrite ?Em in H; injection H as <- <-; unfold sees; cbn; rewrite X1, X2, X3, X4, X5;
      (repeat (split; [assumption || reflexivity|]); split; [exists e; split; [congruence|tauto]|]; split; [constructor; auto|rewrite Ev1; auto]).
  - rewrite S4. split; [exact (A1 _ _ _ A2)|].
    destruct (zget (sentTable m2) r) as [obj|]; cbn [dev] in H; cbn [reportEvent set_sentObjs] in H; rewrite ?Em in H; injection H as <- <-; unfold sees; cbn; rewrite ?Em, X1, X2, X3, X4, X5, Ev1; auto 10.
Qed.
