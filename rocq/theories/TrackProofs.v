From Verif Require Import Base PduModel ModemCore ModemSpec WriteProofs MonadProofs SmsModel SendSpec TrackSpec SendProofs StoreLemmas.

Lemma keeps_setSmsMemory {X} (f : modem -> X) a b : (forall v m, f (set_writeWait v m) = f m) -> (forall v m, f (set_memRead v m) = f m) -> keeps f (setSmsMemory a b).
Proof. intros H1 H2. unfold setSmsMemory, write. keeps_tac; first [apply keeps_write; auto|apply keeps_modify; auto]. Qed.
Lemma keeps_read {X} (f : modem -> X) i mem : (forall v m, f (set_writeWait v m) = f m) -> (forall v m, f (set_memRead v m) = f m) -> keeps f (readStoredSms i mem).
Proof. intros H1 H2. unfold readStoredSms, write. apply keeps_bind; [apply keeps_setSmsMemory; auto|intros _]. keeps_tac; apply keeps_write; auto. Qed.
Lemma keeps_delete {X} (f : modem -> X) i mem : (forall v m, f (set_writeWait v m) = f m) -> (forall v m, f (set_memRead v m) = f m) -> keeps f (deleteStoredSms i mem).
Proof. intros H1 H2. unfold deleteStoredSms, write. apply keeps_bind; [apply keeps_setSmsMemory; auto|intros _]. keeps_tac; apply keeps_write; auto. Qed.

(** ** C43: the reference counter *)
Lemma first_cmgs_in a l : first_cmgs a l -> In l a /\ starts_with (lit "+CMGS:") l.
Proof. intros (b & c & -> & S & _). split; auto. apply in_app_iff. right. left. auto. Qed.
Lemma number_nonneg n s : number_text n s -> ~ In 45 s -> 0 <= n.
Proof.
  assert (V : forall ds acc, Forall (fun c => is_digit c = true) ds -> 0 <= acc -> 0 <= fold_left (fun a c => 10 * a + (c - 48)) ds acc).
  { induction ds as [|c ds IH]; intros acc F H; cbn; auto. inversion F; subst. apply IH; auto. apply digit_range in H2. lia. }
  intros [ds a b [_ D] _ _|ds a b [_ D] _ _|ds a b [_ D] _ _] N.
  - apply V; auto. lia.
  - apply V; auto. lia.
  - exfalso. apply N. apply in_app_iff. right. left. auto.
Qed.
Lemma in_skipn {A} (x : A) n l : In x (skipn n l) -> In x l.
Proof. revert l. induction n as [|n IH]; intros [|y l] H; cbn in *; auto. Qed.

(** the answers come from the script *)
Lemma exchange_last data term w a w' : write_with data term true w = Done (Ok a) w' ->
  In (Lines a) (script w) /\ (forall r, In r (script w') -> In r (script w)).
Proof.
  intro H. apply write_done in H as (busy & codes & r & E & _ & _ & O & _). apply outcome_ok in O as [-> _]. rewrite E. split.
  - apply in_app_iff. right. left. auto.
  - intros r Hr. apply in_app_iff. right. right. auto.
Qed.
Lemma send_pdus_answer pdus : forall result w line w', send_pdus pdus result w = Done (Ok (Some line)) w' -> result <> Some line ->
  exists a, In (Lines a) (script w) /\ lineStartingWith (lit "+CMGS:") a = Some line.
Proof.
  induction pdus as [|p pdus IH]; intros result w line w' H N; cbn [send_pdus] in H; [injection H as ->; congruence|].
  apply bind_ok in H as (a1 & w1 & W1 & H). apply bind_ok in H as (a2 & w2 & W2 & H).
  apply exchange_last in W1 as [_ I1]. apply exchange_last in W2 as [I2 I3].
  destruct (lineStartingWith (lit "+CMGS:") a2) as [l2|] eqn:L.
  - destruct (list_eq_dec Z.eq_dec l2 line) as [->|Nl]; [eauto|]. apply IH in H as (a & Ia & La); [eauto|congruence].
  - apply IH in H as (a & Ia & La); [eauto|congruence].
Qed.
Lemma transmit_answer m d t fl w line w' : transmit m d t fl w = Done (Ok (Some line)) w' ->
  exists a, In (Lines a) (script w) /\ lineStartingWith (lit "+CMGS:") a = Some line.
Proof.
  unfold transmit. destruct (smsTextMode m).
  - unfold send_text. intro H. apply bind_ok in H as (a1 & w1 & W1 & H). apply bind_ok in H as (a2 & w2 & W2 & H).
    apply exchange_last in W1 as [_ I1]. apply exchange_last in W2 as [I2 I3]. injection H as H _. eauto.
  - intro H. apply bind_ok in H as (pdus & w1 & W1 & H). injection W1 as _ <-. eapply send_pdus_answer; eauto. discriminate.
Qed.
Lemma keeps_send_pdus {X} (f : modem -> X) pdus : (forall v m, f (set_writeWait v m) = f m) -> forall r, keeps f (send_pdus pdus r).
Proof.
  intro H. induction pdus as [|p pdus IH]; intro r; cbn [send_pdus]; [apply keeps_ret|].
  apply keeps_bind; [apply keeps_write; auto|intros _]. apply keeps_bind; [apply keeps_write; auto|auto].
Qed.
Lemma keeps_transmit {X} (f : modem -> X) m d t fl : (forall v m, f (set_writeWait v m) = f m) -> keeps f (transmit m d t fl).
Proof.
  intro H. unfold transmit. destruct (smsTextMode m).
  - unfold send_text. apply keeps_bind; [apply keeps_write; auto|intros _]. apply keeps_bind; [apply keeps_write; auto|intro; apply keeps_ret].
  - apply keeps_bind; [apply keeps_lift|intro]. apply keeps_send_pdus; auto.
Qed.

(** what sendSms does to the attributes, in either mode *)
Lemma sendSms_state d t fl wt w :
  match sendSms d t fl wt w with
  | Done (Ok obj) w' => exists a n, In (Lines a) (script w) /\ reference_in a n /\ obj = length (sentObjs (dev w)) /\
      smsRef (dev w') = next_ref n /\ sentObjs (dev w') = sentObjs (dev w) ++ [mk_sent d t n None] /\
      sentTable (dev w') = zset (sentTable (dev w)) n obj /\ (forall line, lineStartingWith (lit "+CMGS:") a = Some line -> number_text n (skipn 7 line))
  | o => sms_state (state_after o) = sms_state (dev w)
  end.
Proof.
  rewrite sendSms_eq. pose proof (keeps_transmit sms_state (dev w) d t fl ltac:(reflexivity) w) as K.
  destruct (transmit (dev w) d t fl w) as [[[line|]|e] w'|w'] eqn:E; cbn [last_of state_after dev] in *; auto.
  apply transmit_answer in E as (a & I & L). unfold sms_state in K. injection K as K1 K2 K3 K4.
  destruct (py_int 10 (skipn 7 line)) as [n|e] eqn:P; cbn [state_after]; [|unfold sms_state; congruence].
  apply py_int_iff in P. exists a, n. split; auto. split.
  { exists line. split; auto. pose proof (first_cmgs_iff a) as F. rewrite L in F. auto. }
  rewrite K2. repeat split; auto.
  - unfold recorded. destruct wt; auto.
  - unfold recorded. rewrite <- K2. destruct wt; auto.
  - unfold recorded. rewrite <- K3, <- K2. destruct wt; auto.
  - congruence.
Qed.

Definition next_after (n : Z) : Z := if n <? 255 then n + 1 else 0.
Lemma next_after_eq n : next_ref n = next_after n.
Proof. unfold next_ref, next_after. destruct (Z.ltb_spec 255 (n + 1)), (Z.ltb_spec n 255); lia. Qed.
Lemma nth_error_snoc {A} (l : list A) x : nth_error (l ++ [x]) (length l) = Some x.
Proof. rewrite nth_error_app2, Nat.sub_diag; auto. Qed.
Lemma counter_inv m refs m' : sends m refs m' -> 0 <= smsRef m <= 255 ->
  0 <= smsRef m' <= 255 /\ smsRef m' = match rev refs with [] => smsRef m | n :: _ => if n <? 255 then n + 1 else 0 end /\ Forall (fun n => 0 <= n) refs.
Proof.
  intros H R. induction H as [|refs m1 d t fl wt sc obj w s H IH Q S N|refs m1 d t fl wt sc e w H IH Q S|refs m1 d t fl wt sc w H IH Q S].
  - cbn. auto.
  - destruct IH as (IH1 & IH2 & IH3). pose proof (sendSms_state d t fl wt (start m1 sc)) as X. rewrite S in X. destruct X as (a & n & I & Rf & -> & X1 & X2 & X3 & X4).
    cbn [start dev script] in *. rewrite X2, nth_error_snoc in N. injection N as <-. cbn [s_reference].
    assert (0 <= n).
    { destruct Rf as (line & F & Nt). apply (number_nonneg n _ Nt). intro M. apply first_cmgs_in in F as [F1 F2]. eapply Q; eauto. eapply in_skipn; eauto. }
    rewrite rev_app_distr. cbn [rev app]. rewrite X1, next_after_eq. unfold next_after. split; [destruct (Z.ltb_spec n 255); lia|]. split; auto.
    apply Forall_app. split; auto.
  - pose proof (sendSms_state d t fl wt (start m1 sc)) as X. rewrite S in X. cbn in X. unfold sms_state in X. injection X as X _ _ _. rewrite X. auto.
  - pose proof (sendSms_state d t fl wt (start m1 sc)) as X. rewrite S in X. cbn in X. unfold sms_state in X. injection X as X _ _ _. rewrite X. auto.
Qed.

(** ** C45: delivery status *)
Definition handed (hs : list happening) (r : Z) : bool := existsb (fun h => match h with Sent r' => r' =? r | _ => false end) hs.
Lemma verdict_snoc r hs : forall acc h, verdict_for r (hs ++ [h]) acc =
  if handed hs r then verdict_for r hs acc else
  match h with Sent _ => verdict_for r hs acc | Reported r' c => if r' =? r then Some c else verdict_for r hs acc end.
Proof.
  induction hs as [|x hs IH]; intros acc h; cbn [app verdict_for handed existsb].
  - destruct h as [r'|r' c]; [destruct (r' =? r); auto|destruct (r' =? r); auto].
  - destruct x as [r'|r' c].
    + destruct (r' =? r); cbn [orb]; auto.
    + cbn [orb]. fold (handed hs r). rewrite IH. auto.
Qed.
Fixpoint count_sent (hs : list happening) : nat := match hs with [] => O | Sent _ :: hs' => S (count_sent hs') | _ :: hs' => count_sent hs' end.
Lemma sent_as_snoc hs : forall k h, sent_as k (hs ++ [h]) =
  match sent_as k hs with
  | Some (r, later) => Some (r, later ++ [h])
  | None => match h with Sent r => if Nat.eqb k (count_sent hs) then Some (r, []) else None | _ => None end
  end.
Proof.
  induction hs as [|x hs IH]; intros k h; cbn [app sent_as count_sent].
  - destruct h; auto. destruct k; auto.
  - destruct x as [r'|r' c]; auto. destruct k; auto. apply IH.
Qed.
Lemma sent_as_lt hs : forall k, sent_as k hs <> None <-> (k < count_sent hs)%nat.
Proof.
  induction hs as [|x hs IH]; intro k; cbn [sent_as count_sent]; [split; [congruence|lia]|]. destruct x as [r'|r' c]; auto.
  destruct k; [split; [lia|congruence]|]. rewrite IH. lia.
Qed.
Lemma zget_zset {A} (d : list (Z * A)) k x j : zget (zset d k x) j = if k =? j then Some x else zget d j.
Proof.
  induction d as [|[i y] d IH]; cbn; [destruct (k =? j); auto|]. destruct (Z.eqb_spec i k) as [->|N]; cbn.
  - destruct (k =? j); auto.
  - rewrite IH. destruct (Z.eqb_spec i j) as [->|N2]; auto. destruct (Z.eqb_spec k j); auto. congruence.
Qed.
Lemma update_nth {A} (l : list A) n f k : nth_error (update l n f) k = if Nat.eqb n k then option_map f (nth_error l k) else nth_error l k.
Proof.
  revert n k. induction l as [|x l IH]; intros n k; cbn; [destruct k; destruct (Nat.eqb n _); auto|].
  destruct n as [|n], k as [|k]; cbn; auto.
Qed.
Lemma update_length {A} (l : list A) n f : length (update l n f) = length l.
Proof. revert n. induction l as [|x l IH]; intros [|n]; cbn; auto. Qed.

Definition tracked (hs : list happening) (m : modem) : Prop :=
  length (sentObjs m) = count_sent hs /\
  (forall k r later, sent_as k hs = Some (r, later) -> exists d t, nth_error (sentObjs m) k = Some (mk_sent d t r (verdict_for r later None))) /\
  (forall r k, zget (sentTable m) r = Some k <-> exists later, sent_as k hs = Some (r, later) /\ handed later r = false).
Lemma tracked_same hs m m' : sentObjs m' = sentObjs m -> sentTable m' = sentTable m -> tracked hs m -> tracked hs m'.
Proof. unfold tracked. intros -> ->. auto. Qed.
Lemma handed_snoc hs h r : handed (hs ++ [h]) r = handed hs r || match h with Sent r' => r' =? r | _ => false end.
Proof. unfold handed. rewrite existsb_app. cbn. destruct h; rewrite ?orb_false_r; auto. Qed.
Lemma count_snoc hs h : count_sent (hs ++ [h]) = (count_sent hs + match h with Sent _ => 1 | _ => 0 end)%nat.
Proof. induction hs as [|x hs IH]; cbn; [destruct h; auto|]. destruct x; rewrite IH; lia. Qed.
Lemma nth_error_app_lt {A} (l l' : list A) k x : nth_error l k = Some x -> nth_error (l ++ l') k = Some x.
Proof. intro H. rewrite nth_error_app1; auto. apply nth_error_Some. congruence. Qed.

Lemma tracked_sent hs m m' d t n : tracked hs m -> sentObjs m' = sentObjs m ++ [mk_sent d t n None] ->
  sentTable m' = zset (sentTable m) n (length (sentObjs m)) -> tracked (hs ++ [Sent n]) m'.
Proof.
  intros (L & O & T) E1 E2. split; [rewrite E1, app_length, count_snoc, L; auto|]. split.
  - intros k r later H. rewrite sent_as_snoc in H. destruct (sent_as k hs) as [[r0 l0]|] eqn:S.
    + injection H as <- <-. destruct (O _ _ _ S) as (d0 & t0 & N). exists d0, t0. rewrite E1. rewrite verdict_snoc.
      replace (if handed l0 r0 then _ else _) with (verdict_for r0 l0 None) by (destruct (handed l0 r0); auto). apply nth_error_app_lt. auto.
    + destruct (Nat.eqb_spec k (count_sent hs)) as [->|]; [|discriminate]. injection H as <- <-. exists d, t. rewrite E1, <- L. apply nth_error_snoc.
  - intros r k. rewrite E2, zget_zset. destruct (Z.eqb_spec n r) as [->|N].
    + split.
      * intros [= <-]. exists []. split; auto. rewrite sent_as_snoc. assert (S : sent_as (length (sentObjs m)) hs = None).
        { destruct (sent_as (length (sentObjs m)) hs) eqn:S; auto. exfalso. assert (sent_as (length (sentObjs m)) hs <> None) by congruence.
          apply sent_as_lt in H. lia. }
        rewrite S, L, Nat.eqb_refl. auto.
      * intros (later & H & Hn). rewrite sent_as_snoc in H. destruct (sent_as k hs) as [[r0 l0]|] eqn:S.
        -- injection H as <- <-. rewrite handed_snoc, Z.eqb_refl, orb_true_r in Hn. discriminate.
        -- destruct (Nat.eqb_spec k (count_sent hs)) as [->|]; [|discriminate]. congruence.
    + rewrite T. split.
      * intros (later & S & Hn). exists (later ++ [Sent n]). rewrite sent_as_snoc, S. split; auto. rewrite handed_snoc, Hn. cbn. apply Z.eqb_neq. auto.
      * intros (later & H & Hn). rewrite sent_as_snoc in H. destruct (sent_as k hs) as [[r0 l0]|] eqn:S.
        -- injection H as <- <-. rewrite handed_snoc in Hn. apply orb_false_iff in Hn as [Hn _]. exists l0. auto.
        -- destruct (Nat.eqb_spec k (count_sent hs)) as [->|]; [|discriminate]. congruence.
Qed.
Lemma tracked_report hs m m' r0 code : tracked hs m -> sentTable m' = sentTable m ->
  sentObjs m' = match zget (sentTable m) r0 with
    | Some obj => update (sentObjs m) obj (fun s => mk_sent (s_number s) (s_text s) (s_reference s) (Some code))
    | None => sentObjs m end -> tracked (hs ++ [Reported r0 code]) m'.
Proof.
  intros (L & O & T) E2 E1. split; [|split].
  - rewrite count_snoc, Nat.add_0_r, <- L, E1. destruct (zget (sentTable m) r0); auto. apply update_length.
  - intros k r later H. rewrite sent_as_snoc in H. destruct (sent_as k hs) as [[r1 l1]|] eqn:S; [|discriminate]. injection H as <- <-.
    destruct (O _ _ _ S) as (d & t & N). exists d, t. rewrite E1, verdict_snoc.
    destruct (zget (sentTable m) r0) as [obj|] eqn:G.
    + rewrite update_nth. destruct (Nat.eqb_spec obj k) as [->|Nk].
      * apply T in G as (later & S' & Hn). rewrite S in S'. injection S' as -> ->. rewrite Hn, Z.eqb_refl, N. auto.
      * rewrite N. f_equal. f_equal. destruct (handed l1 r1) eqn:Hn; auto. destruct (Z.eqb_spec r0 r1) as [->|]; auto.
        assert (zget (sentTable m) r1 = Some k) by (apply T; eauto). congruence.
    + rewrite N. f_equal. f_equal. destruct (handed l1 r1) eqn:Hn; auto. destruct (Z.eqb_spec r0 r1) as [->|]; auto.
      assert (zget (sentTable m) r1 = Some k) by (apply T; eauto). congruence.
  - intros r k. rewrite E2, T. split.
    + intros (later & S & Hn). exists (later ++ [Reported r0 code]). rewrite sent_as_snoc, S. split; auto. rewrite handed_snoc, Hn. auto.
    + intros (later & H & Hn). rewrite sent_as_snoc in H. destruct (sent_as k hs) as [[r1 l1]|] eqn:S; [|discriminate].
      injection H as <- <-. rewrite handed_snoc, orb_false_r in Hn. exists l1. auto.
Qed.

(** what the handler does to the attributes *)
Definition sent_state (m : modem) := (sentObjs m, sentTable m).
Lemma status_report_state line mem idx w : indication (lit "+CDSI:") mem idx line ->
  match handleSmsStatusReport line w with
  | Done (Ok _) w' => exists st r nb t1 t2 code w1, readStoredSms idx (Some mem) w = Done (Ok (Report st r nb t1 t2 code)) w1 /\
      sentTable (dev w') = sentTable (dev w) /\
      sentObjs (dev w') = match zget (sentTable (dev w)) r with
        | Some obj => update (sentObjs (dev w)) obj (fun s => mk_sent (s_number s) (s_text s) (s_reference s) (Some code))
        | None => sentObjs (dev w) end
  | o => sent_state (state_after o) = sent_state (dev w)
  end.
Proof.
  intro I. apply indication_match in I as (t & rest & E). rewrite <- cdsi_is in E. unfold handleSmsStatusReport. rewrite E.
  unfold group. cbn [groups fst snd nth Nat.sub]. unfold mbind at 1.
  pose proof (keeps_read sent_state idx (Some mem) ltac:(reflexivity) ltac:(reflexivity) w) as K.
  destruct (readStoredSms idx (Some mem) w) as [[rep|e] w1|w1]; cbn [last_of state_after] in *; auto. unfold mbind at 1.
  pose proof (keeps_delete sent_state idx None ltac:(reflexivity) ltac:(reflexivity) w1) as K2.
  destruct (deleteStoredSms idx None w1) as [[u|e] w2|w2]; cbn [last_of state_after] in *; [|congruence|congruence]. rewrite K in K2. injection K2 as K3 K4.
  destruct rep as [st nb tm tx sm|st r nb t1 t2 code]; [cbn [raise state_after]; unfold sent_state; congruence|].
  destruct w2 as [m2 sc2 tr2]. cbn [dev] in *. unfold mbind, get, modify, tell, ret. cbn [dev].
  destruct (zget (sentTable m2) r) as [obj|] eqn:G; cbn [dev].
  - destruct (reportEvent (set_sentObjs _ m2)); cbn [dev]; exists st, r, nb, t1, t2, code, w1; rewrite <- K4, <- K3, G; auto.
  - destruct (reportEvent m2); cbn [dev]; exists st, r, nb, t1, t2, code, w1; rewrite <- K4, <- K3, G; auto.
Qed.

Lemma happens_tracked m hs m' : happens m hs m' -> sentObjs m = [] -> sentTable m = [] -> tracked hs m'.
Proof.
  intros H E1 E2. induction H as [|hs m1 d t fl wt sc obj w s H IH S N|hs m1 d t fl wt sc H IH S|hs m1 line mem idx sc st r nb t1 t2 code w1 w H IH I R S|hs m1 line sc H IH S|hs m1 sc H IH].
  - split; [rewrite E1; auto|]. split; [discriminate|]. intros r k. rewrite E2. cbn. split; [discriminate|intros (l & F & _); discriminate].
  - pose proof (sendSms_state d t fl wt (start m1 sc)) as X. rewrite S in X. destruct X as (a & n & _ & Rf & -> & X1 & X2 & X3 & X4).
    cbn [start dev] in *. rewrite X2, nth_error_snoc in N. injection N as <-. cbn [s_reference]. eapply tracked_sent; eauto.
  - pose proof (sendSms_state d t fl wt (start m1 sc)) as X. destruct (sendSms d t fl wt (start m1 sc)) as [[obj|e] w|w]; [exfalso; eapply S; eauto| |];
    cbn [state_after start dev] in *; unfold sms_state in X; injection X as _ X1 X2 _; eapply tracked_same; eauto.
  - pose proof (status_report_state line mem idx (start m1 sc) I) as X. rewrite S in X. destruct X as (st' & r' & nb' & t1' & t2' & code' & w1' & R' & X1 & X2).
    rewrite R in R'. injection R' as <- <- <- <- <- <- <-. eapply tracked_report; eauto.
  - destruct (CDSI_dec line) as [(mem & idx & I)|NI].
    + destruct S as [S|S]; [|exfalso; eapply S; eauto].
      pose proof (status_report_state line mem idx (start m1 sc) I) as X.
      destruct (handleSmsStatusReport line (start m1 sc)) as [[[]|e] w|w]; [exfalso; eapply S; eauto| |];
      cbn [state_after start dev] in *; unfold sent_state in X; injection X as X1 X2; eapply tracked_same; eauto.
    + unfold handleSmsStatusReport. rewrite cdsi_is, indication_nomatch by auto. exact IH.
  - eapply tracked_same; [| |exact IH]; unfold sendSms_wait, mbind, get, modify; cbn; destruct (reportEvent m1) as [[]|]; auto.
Qed.
