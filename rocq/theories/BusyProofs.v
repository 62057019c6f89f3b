(** Proofs about BusyModel. *)
From Verif Require Import Base ModemCore ModemSpec WriteProofs ModemFinal BusyModel BusySpec.

Lemma nth_put {A} (ts : list A) i j x y : nth_error ts i = Some y -> nth_error (put_at i x ts) j = if Nat.eqb i j then Some x else nth_error ts j.
Proof.
  revert i j. induction ts as [|t ts IH]; intros i j E; destruct i; cbn in E; try discriminate.
  - destruct j; reflexivity.
  - destruct j; cbn; [reflexivity|]. apply IH. exact E.
Qed.
Lemma in_put {A} (ts : list A) i x y : In y (put_at i x ts) -> y = x \/ In y ts.
Proof. revert i. induction ts as [|t ts IH]; intros [|i] H; cbn in *; intuition. apply IH in H0. intuition. Qed.
Lemma sent_snoc i ls j l : sent_by i (ls ++ [(j, l)]) = sent_by i ls ++ (if Nat.eqb j i then match l with BSent text r => [(text, r)] | _ => [] end else []).
Proof. unfold sent_by. rewrite flat_map_app. cbn. rewrite app_nil_r. reflexivity. Qed.

(** ** Judging a reply *)
Lemma judged_cases data ls :
  (exists code, busy_reply code (Lines ls) /\ judged data ls = BLoad code) \/
  (not_busy (Lines ls) /\ ((exists ls', outcome data (Lines ls) (Ok ls') /\ judged data ls = BReturn ls') \/
                           (exists e, outcome data (Lines ls) (Err e) /\ judged data ls = BEnd (Err e)))).
Proof.
  unfold judged. destruct (reply_cases data (Lines ls)) as [(code & B)|(NB & x & O)].
  - left. exists code. split; [exact B|]. destruct B as (Bc & l & line & kind & E & C). injection E as ->. rewrite rev_app_distr. cbn [rev app].
    rewrite (proj1 (judge_code data kind code line C) Bc). reflexivity.
  - right. split; [exact NB|]. inversion O; subst.
    + right. exists IndexError. split; [constructor|reflexivity].
    + left. eexists. split; [constructor; eassumption|]. rewrite rev_app_distr. cbn [rev app]. rewrite judge_good by assumption. reflexivity.
    + right. destruct (proj2 (judge_code data kind code line H0) H1) as (e' & X & J). exists e'. split; [econstructor; eassumption|].
      rewrite rev_app_distr. cbn [rev app]. rewrite J. reflexivity.
    + right. eexists. split; [econstructor; eassumption|]. rewrite rev_app_distr. cbn [rev app]. rewrite judge_plain by assumption. reflexivity.
    + right. eexists. split; [apply oc_unsupported|]. rewrite rev_app_distr. cbn [rev app]. rewrite judge_unsupported. reflexivity.
Qed.
Lemma silent_not_busy ls : not_busy (NoReply ls).
Proof. intros code (_ & l & line & kind & E & _). discriminate. Qed.
Lemma silent_outcome data ls : outcome data (NoReply ls) (Err (TimeoutException (match ls with [] => None | _ => Some ls end))).
Proof. destruct ls; constructor. Qed.

(** ** Every call gets its own answer *)
Definition own (job : str * str) (t : bthread) (sent : list (str * reply)) : Prop :=
  b_data t = fst job /\ b_term t = snd job /\
  exists busy codes, all_busy busy codes /\
    let tag := map (fun r : reply => (fst job ++ snd job, r)) in
    match b_place t with
    | BSend => sent = tag busy
    | BTest ls | BPause ls => sent = tag (busy ++ [Lines ls])
    | BLoad c | BStore c _ | BAgain c => exists b, sent = tag (busy ++ [b]) /\ busy_reply c b
    | BReturn ls => exists r, sent = tag (busy ++ [r]) /\ not_busy r /\ outcome (fst job) r (Ok ls)
    | BEnd x => exists r, sent = tag (busy ++ [r]) /\ not_busy r /\ outcome (fst job) r x /\ (forall ls, x = Ok ls -> b_codes t = [])
    end.
Lemma own_judged job t sent ls busy codes : b_data t = fst job -> b_term t = snd job -> all_busy busy codes -> sent = map (fun r : reply => (fst job ++ snd job, r)) (busy ++ [Lines ls]) ->
  own job (mkB (b_data t) (b_term t) (b_codes t) (judged (b_data t) ls)) sent.
Proof.
  intros D T B S. unfold own. cbn [b_data b_term b_codes b_place]. split; [exact D|]. split; [exact T|]. exists busy, codes. split; [exact B|]. cbv zeta. rewrite D.
  destruct (judged_cases (fst job) ls) as [(c & Bc & ->)|(NB & [(l & O & ->)|(e & O & ->)])].
  - exists (Lines ls). auto.
  - exists (Lines ls). auto.
  - exists (Lines ls). repeat split; auto. discriminate.
Qed.
Lemma own_step job t sent wait r wait' t' l : own job t sent -> bstep1 wait t r = Some (wait', t', l) ->
  own job t' (sent ++ match l with BSent text r => [(text, r)] | _ => [] end).
Proof.
  intros (D & T & busy & codes & B & S) M. destruct t as [data term cs p]. cbn [b_data b_term b_codes b_place bstep1] in *. cbv zeta in S.
  destruct p as [|ls|ls|c|c v|c|ls|x].
  - injection M as <- <- <-. destruct r as [ls|ls].
    + unfold own. cbn. split; auto. split; auto. exists busy, codes. split; auto. cbv zeta. rewrite map_app, S, D, T. reflexivity.
    + assert (E : match ls with [] => BEnd (Err (TimeoutException None)) | _ => BEnd (Err (TimeoutException (Some ls))) end = BEnd (Err (TimeoutException (match ls with [] => None | _ => Some ls end)))) by (destruct ls; reflexivity).
      rewrite E. unfold own. cbn [b_data b_term b_codes b_place]. split; auto. split; auto. exists busy, codes. split; auto. cbv zeta. exists (NoReply ls).
      rewrite map_app, S, D, T. split; [reflexivity|]. split; [apply silent_not_busy|]. split; [apply silent_outcome|discriminate].
  - injection M as <- <- <-. rewrite app_nil_r. destruct (0 <? wait).
    + unfold own. cbn. split; auto. split; auto. exists busy, codes. auto.
    + exact (own_judged job (mkB data term cs (BTest ls)) sent ls busy codes D T B S).
  - injection M as <- <- <-. rewrite app_nil_r. exact (own_judged job (mkB data term cs (BPause ls)) sent ls busy codes D T B S).
  - injection M as <- <- <-. rewrite app_nil_r. unfold own. cbn. split; auto. split; auto. exists busy, codes. auto.
  - injection M as <- <- <-. rewrite app_nil_r. unfold own. cbn. split; auto. split; auto. exists busy, codes. auto.
  - injection M as <- <- <-. rewrite app_nil_r. destruct S as (b & S & Bb). unfold own. cbn. split; auto. split; auto. exists (busy ++ [b]), (codes ++ [c]). split; auto.
    apply Forall2_app; auto.
  - destruct S as (r0 & S & NB & O). destruct cs as [|c cs]; injection M as <- <- <-; rewrite app_nil_r; unfold own; cbn; (split; [auto|]; split; [auto|]; exists busy, codes; split; [auto|]).
    + exists r0. auto.
    + exists r0. auto.
  - discriminate.
Qed.
Lemma own_all wait jobs ls s : brun (bstart wait jobs) ls s -> forall i t, nth_error (b_threads s) i = Some t -> exists job, nth_error jobs i = Some job /\ own job t (sent_by i ls).
Proof.
  intros R. induction R as [|ls s j l s' R IH St]; intros i t N.
  - cbn [bstart b_threads] in N. rewrite nth_error_map in N. destruct (nth_error jobs i) as [job|]; [|discriminate]. injection N as <-. exists job. split; auto.
    split; auto. split; auto. exists [], []. split; [constructor|reflexivity].
  - destruct St as [t0 r w t' N0 M ->]. cbn [b_threads] in N. rewrite (nth_put _ _ _ _ _ N0) in N. rewrite sent_snoc. destruct (Nat.eqb_spec j i) as [->|ne].
    + injection N as <-. destruct (IH i t0 N0) as (job & J & O). exists job. split; auto. eapply own_step; eauto.
    + rewrite app_nil_r. auto.
Qed.
Lemma own_answer wait jobs ls s i t x : brun (bstart wait jobs) ls s -> nth_error (b_threads s) i = Some t -> b_place t = BEnd x ->
  exists data term busy codes r, nth_error jobs i = Some (data, term) /\ sent_by i ls = map (fun r => (data ++ term, r)) (busy ++ [r]) /\
    all_busy busy codes /\ not_busy r /\ outcome data r x.
Proof.
  intros R N E. destruct (own_all _ _ _ _ R i t N) as ([data term] & J & D & T & busy & codes & B & O). rewrite E in O. destruct O as (r & S & NB & O & _).
  exists data, term, busy, codes, r. auto.
Qed.

(** ** The delay *)
Lemma delay_inv wait jobs ls s : 0 <= wait -> brun (bstart wait jobs) ls s ->
  0 <= b_wait s /\ (forall t c v, In t (b_threads s) -> b_place t = BStore c v -> 0 <= v) /\ (forall i d, In (i, BSlept d) ls -> 0 <= d).
Proof.
  intros W R. induction R as [|ls s j l s' R IH St].
  - cbn. split; auto. split; [|tauto]. intros t c v I E. apply in_map_iff in I as (job & <- & _). discriminate.
  - destruct IH as (A & B & C). destruct St as [t r w t' N M ->]. cbn [b_wait b_threads]. pose proof (nth_error_In _ _ N) as It. destruct t as [data term cs p]. cbn in M.
    assert (X : 0 <= w /\ (forall c v, b_place t' = BStore c v -> 0 <= v) /\ (forall d, l = BSlept d -> 0 <= d)).
    { assert (Y : forall ls' c v, judged data ls' = BStore c v -> False).
      { intros ls' c v E. unfold judged in E. destruct (rev ls') as [|z zs]; [discriminate|]. destruct (judge data z); discriminate. }
      destruct p as [|l0|l0|c|c v|c|l0|x].
      - injection M as <- <- <-. split; auto. split; [|discriminate]. cbn. intros c v. destruct r as [?|[|? ?]]; discriminate.
      - injection M as <- <- <-. split; auto. split; [|discriminate]. cbn. intros c v. destruct (0 <? b_wait s); [discriminate|]. intros E. destruct (Y _ _ _ E).
      - injection M as <- <- <-. split; auto. split; [|intros d [= <-]; auto]. cbn. intros c v E. destruct (Y _ _ _ E).
      - injection M as <- <- <-. split; auto. split; [|discriminate]. cbn. intros c' v [= _ <-]. auto.
      - injection M as <- <- <-. pose proof (B _ c v It eq_refl). split; [lia|]. split; [discriminate|discriminate].
      - injection M as <- <- <-. split; auto. split; [discriminate|intros d [= <-]; auto].
      - destruct cs as [|c cs]; injection M as <- <- <-; (split; [|split; discriminate]); auto. destruct (c =? 515); lia.
      - discriminate. }
    destruct X as (X1 & X2 & X3). split; [exact X1|]. split.
    + intros t0 c v I E. apply in_put in I as [->|I]; eauto.
    + intros i d I. apply in_app_iff in I as [I|[E|[]]]; [eauto|]. injection E as -> ->. auto.
Qed.

(** *** When all calls have returned *)
Lemma in_sent i text r ls : In (i, BSent text r) ls -> In (text, r) (sent_by i ls).
Proof. intros I. unfold sent_by. apply in_flat_map. exists (i, BSent text r). cbn. rewrite Nat.eqb_refl. cbn. auto. Qed.
Lemma sent_in i text r ls : In (text, r) (sent_by i ls) -> In (i, BSent text r) ls.
Proof.
  intros I. apply in_flat_map in I as ([j l] & I & J). cbn in J. destruct (Nat.eqb_spec j i) as [->|]; [|destruct J]. destruct l; cbn in J; intuition. injection H as -> ->. exact I.
Qed.
(** raised by a call that has not put it back *)
Definition owing (t : bthread) : Prop := (exists c, b_place t = BAgain c) \/ b_codes t <> [].
Definition untouched (ls : list (nat * blabel)) (s : bstate) : Prop := forall i t, nth_error (b_threads s) i = Some t ->
  b_codes t = [] /\ (forall c, b_place t <> BAgain c) /\ (length (sent_by i ls) <= match b_place t with BSend => 0 | _ => 1 end)%nat.
Lemma judged_not data ls : (forall c, judged data ls <> BAgain c) /\ judged data ls <> BSend.
Proof. unfold judged. destruct (rev ls) as [|z zs]; [split; discriminate|]. destruct (judge data z); split; discriminate. Qed.
Lemma rest_inv wait jobs ls s : brun (bstart wait jobs) ls s ->
  (b_wait s = wait /\ untouched ls s) \/ b_wait s = 0 \/ b_wait s = 1 \/ exists t, In t (b_threads s) /\ owing t.
Proof.
  intros R. induction R as [|ls s j l s' R IH St].
  - left. split; auto. intros i t N. cbn [bstart b_threads] in N. rewrite nth_error_map in N. destruct (nth_error jobs i); [|discriminate]. injection N as <-. cbn. repeat split; auto. discriminate.
  - destruct St as [t r w t' N M ->]. cbn [b_wait b_threads].
    assert (Keep : forall x, In x (b_threads s) -> owing x -> owing t \/ In x (put_at j t' (b_threads s))).
    { intros x I O. destruct (In_nth_error _ _ I) as [k K]. destruct (Nat.eq_dec j k) as [->|ne]; [left; congruence|].
      right. apply (nth_error_In _ k). rewrite (nth_put _ _ _ _ _ N). rewrite (proj2 (Nat.eqb_neq _ _) ne). exact K. }
    assert (In' : In t' (put_at j t' (b_threads s))).
    { apply (nth_error_In _ j). rewrite (nth_put _ _ _ _ _ N), Nat.eqb_refl. reflexivity. }
    (* either the step sets the delay, or its thread owes afterwards, or nothing of that *)
    assert (X : (w = 0 \/ w = 1) \/ owing t' \/ (w = b_wait s /\ ~ owing t /\ b_codes t' = [] /\ (forall c, b_place t' <> BAgain c) /\
        (b_place t' = BSend -> b_place t = BSend) /\ match l with BSent _ _ => b_place t = BSend /\ b_place t' <> BSend | _ => b_place t <> BSend end)).
    { destruct t as [data term cs p]. cbn [bstep1] in M. unfold owing. destruct p as [|l0|l0|c|c v|c|l0|x].
      - injection M as <- <- <-. cbn. destruct cs; [right; right|right; left; right; discriminate]. repeat split; auto; try (intros [[c E]|E]; [discriminate E|apply E; reflexivity]); destruct r as [?|[|? ?]]; discriminate.
      - injection M as <- <- <-. cbn. destruct (judged_not data l0) as [J1 J2]. destruct cs; [right; right|right; left; right; discriminate].
        repeat split; auto; try (intros [[c E]|E]; [discriminate E|apply E; reflexivity]); destruct (0 <? b_wait s); try discriminate; auto. intros E. contradiction.
      - injection M as <- <- <-. cbn. destruct (judged_not data l0) as [J1 J2]. destruct cs; [right; right|right; left; right; discriminate].
        repeat split; auto; try (intros [[c E]|E]; [discriminate E|apply E; reflexivity]); try discriminate. intros E. contradiction.
      - injection M as <- <- <-. cbn. destruct cs; [right; right|right; left; right; discriminate]. repeat split; auto; try (intros [[c0 E]|E]; [discriminate E|apply E; reflexivity]); discriminate.
      - injection M as <- <- <-. right. left. left. cbn. eauto.
      - injection M as <- <- <-. right. left. right. discriminate.
      - destruct cs as [|c cs]; injection M as <- <- <-.
        + right. right. cbn. repeat split; auto; try (intros [[c0 E]|E]; [discriminate E|apply E; reflexivity]); discriminate.
        + left. destruct (c =? 515); auto.
      - discriminate. }
    destruct X as [X|[X|(X1 & X2 & X3 & X4 & X5 & X6)]]; [tauto|right; right; right; eauto|]. subst w.
    destruct IH as [[E U]|[E|[E|(x & I & O)]]]; auto.
    + left. split; auto. intros i t0 N0. cbn [b_threads] in N0. rewrite (nth_put _ _ _ _ _ N) in N0. rewrite sent_snoc. destruct (Nat.eqb_spec j i) as [->|ne].
      * injection N0 as <-. destruct (U _ _ N) as (_ & _ & L). split; auto. split; auto. rewrite app_length.
        destruct l; cbn [length]; try (destruct (b_place t) eqn:P; [exfalso; apply X6; reflexivity|..]; destruct (b_place t'); try (specialize (X5 eq_refl); discriminate); lia).
        destruct X6 as [P P']. rewrite P in L. destruct (b_place t'); [congruence|..]; lia.
      * rewrite app_nil_r. auto.
    + right. right. right. destruct (Keep x I O) as [|]; [contradiction|]. eauto.
Qed.
Lemma no_busy_stays wait jobs ls s : brun (bstart wait jobs) ls s -> no_busy ls -> b_wait s = wait /\ forall t, In t (b_threads s) -> b_codes t = [].
Proof.
  intros R NB. assert (A : forall ls s, brun (bstart wait jobs) ls s -> no_busy ls -> b_wait s = wait /\ forall t, In t (b_threads s) -> b_codes t = []); [|eauto].
  clear ls s R NB. intros ls s R. induction R as [|ls s j l s' R IH St]; intros NB.
  - split; auto. intros t I. apply in_map_iff in I as (job & <- & _). reflexivity.
  - assert (NB' : no_busy ls) by (intros i text r I; apply (NB i text r); apply in_app_iff; auto). destruct (IH NB') as [W C].
    destruct St as [t r w t' N M ->]. cbn [b_wait b_threads]. pose proof (C t (nth_error_In _ _ N)) as Ct. destruct (own_all _ _ _ _ R j t N) as (job & _ & _ & _ & busy & codes & _ & O).
    assert (Y : w = b_wait s /\ b_codes t' = []).
    { destruct t as [data term cs p]. cbn in Ct, O, M. subst cs. destruct p as [|l0|l0|c|c v|c|l0|x]; try (injection M as <- <- <-; auto; fail); try discriminate M;
        destruct O as (b & S & Bb); exfalso; refine (NB' j (fst job ++ snd job) b _ c Bb); apply sent_in; rewrite S, map_app; apply in_app_iff; right; left; reflexivity. }
    destruct Y as [-> Y]. split; auto. intros x I. apply in_put in I as [->|I]; auto.
Qed.
Lemma delay_at_rest wait jobs ls s : brun (bstart wait jobs) ls s -> all_returned s ->
  (no_busy ls /\ b_wait s = wait) \/ (~ no_busy ls /\ (b_wait s = 0 \/ b_wait s = 1)).
Proof.
  intros R A. assert (D : no_busy ls \/ ~ no_busy ls).
  { assert (G : forall l : list (nat * blabel), no_busy l \/ ~ no_busy l); [|auto]. induction l as [|[i l] ls' IH]; [left; intros ? ? ? []|].
    destruct IH as [IH|IH]; [|right; intros H; apply IH; intros ? ? ? I; eapply H; right; eauto].
    destruct l; try (left; intros ? ? ? [E|I]; [discriminate|eapply IH; eauto]). destruct (reply_cases [] r) as [(c & B)|(NB & _)].
    - right. intros H. exact (H i text r (or_introl eq_refl) c B).
    - left. intros i' t' r' [E|I]; [injection E as -> -> ->; exact NB|eapply IH; eauto]. }
  destruct D as [D|D].
  - left. split; auto. apply (no_busy_stays _ _ _ _ R D).
  - right. split; auto. destruct (rest_inv _ _ _ _ R) as [[E U]|[E|[E|(t & I & O)]]]; auto.
    + exfalso. apply D. intros i text r I. destruct (nth_error (b_threads s) i) as [t|] eqn:N.
      * destruct (A t (nth_error_In _ _ N)) as [l P]. destruct (own_answer _ _ _ _ _ _ _ R N P) as (data & term & busy & codes & r0 & _ & S & _ & NB & _).
        destruct (U _ _ N) as (_ & _ & L). rewrite P, S, map_length, app_length in L. cbn in L. destruct busy; [|cbn in L; lia].
        apply in_sent in I. rewrite S in I. destruct I as [I|[]]. injection I as _ <-. exact NB.
      * exfalso. clear - R I N. revert I N. induction R as [|ls s j l s' R IH St]; intros I N; [destruct I|]. destruct St as [t r0 w t' N0 M ->]. cbn [b_threads] in N.
        rewrite (nth_put _ _ _ _ _ N0) in N. destruct (Nat.eqb_spec j i) as [->|ne]; [discriminate|]. apply in_app_iff in I as [I|[E|[]]]; [auto|congruence].
    + exfalso. destruct (A t I) as [l P]. destruct (In_nth_error _ _ I) as [i N]. destruct (own_all _ _ _ _ R i t N) as (job & _ & _ & _ & busy & codes & _ & Ow).
      rewrite P in Ow. destruct Ow as (r & _ & _ & _ & C). destruct O as [[c E]|E]; [congruence|]. apply E. eapply C. reflexivity.
Qed.

(** *** The delay is bounded by the number of busy replies *)
Definition pend (t : bthread) : nat :=
  match b_place t with
  | BTest ls | BPause ls => match judged (b_data t) ls with BLoad _ => 1 | _ => 0 end
  | BLoad _ | BStore _ _ => 1
  | _ => 0
  end.
Definition total (ts : list bthread) : nat := fold_right (fun t n => pend t + n)%nat 0%nat ts.
Lemma total_put ts i t t' : nth_error ts i = Some t -> (total (put_at i t' ts) + pend t = total ts + pend t')%nat.
Proof.
  revert i. induction ts as [|a ts IH]; intros [|i] N; try discriminate; cbn in N |- *.
  - injection N as ->. lia.
  - specialize (IH i N). cbn [total fold_right] in IH. fold (total (put_at i t' ts)) in *. fold (total ts) in *. lia.
Qed.
Lemma busies_snoc ls n i l : busies (ls ++ [(i, l)]) n ->
  (exists m, busies ls m /\ n = S m /\ exists text r code, l = BSent text r /\ busy_reply code r) \/ (busies ls n /\ forall text r, l = BSent text r -> not_busy r).
Proof.
  intros B. remember (ls ++ [(i, l)]) as L eqn:E. destruct B as [|ls0 n i0 text r code B C|ls0 n i0 l0 B C].
  - destruct ls; discriminate.
  - apply app_inj_tail in E as [-> E]. injection E as -> <-. left. exists n. eauto 8.
  - apply app_inj_tail in E as [-> E]. injection E as -> <-. right. auto.
Qed.
Lemma pend_judged data term cs ls : pend (mkB data term cs (judged data ls)) = match judged data ls with BLoad _ => 1%nat | _ => 0%nat end.
Proof. unfold pend. cbn. destruct (judged_cases data ls) as [(c & _ & ->)|(_ & [(l & _ & ->)|(e & _ & ->)])]; reflexivity. Qed.
Lemma bound_inv wait jobs ls s n : brun (bstart wait jobs) ls s -> busies ls n -> exists k, (k + total (b_threads s) = n)%nat /\
  let top := Z.max wait 1 + 2 * Z.of_nat k in
  b_wait s <= top /\ (forall t c v, In t (b_threads s) -> b_place t = BStore c v -> v <= top) /\ (forall i d, In (i, BSlept d) ls -> d <= top).
Proof.
  intros R. revert n. induction R as [|ls s j l s' R IH St]; intros n B.
  - assert (n = 0%nat) as ->. { remember (@nil (nat * blabel)) as L eqn:E. destruct B as [|ls0 n i0 text r code B C|ls0 n i0 l0 B C]; auto; destruct ls0; discriminate. }
    exists 0%nat. cbn [bstart b_threads b_wait]. split.
    + clear. induction jobs as [|job jobs IHj]; cbn; auto.
    + split; [lia|]. split; [|intros ? ? []]. intros t c v I E. apply in_map_iff in I as (job & <- & _). discriminate.
  - assert (Y : forall data ls' c v, judged data ls' = BStore c v -> False).
    { intros data ls' c v E. unfold judged in E. destruct (rev ls') as [|z zs]; [discriminate|]. destruct (judge data z); discriminate. }
    assert (X : exists m, busies ls m /\ (m + match l with BSent _ (Lines l0) => match judged [] l0 with BLoad _ => 1 | _ => 0 end | _ => 0 end = n)%nat).
    { apply busies_snoc in B as [(m & Bm & -> & text & r & code & -> & Br)|(Bm & NB)].
      - exists m. split; auto. destruct r as [l0|l0]; [|destruct Br as (_ & ? & ? & ? & ? & _); discriminate].
        destruct (judged_cases [] l0) as [(c & _ & ->)|(NB & _)]; [lia|destruct (NB _ Br)].
      - exists n. split; auto. destruct l as [|text r|d| |]; try lia. destruct r as [l0|l0]; [|lia].
        destruct (judged_cases [] l0) as [(c & Bc & _)|(_ & [(l' & _ & ->)|(e & _ & ->)])]; try lia. destruct (NB _ _ eq_refl _ Bc). }
    destruct X as (m & Bm & En). destruct (IH m Bm) as (k & Ek & T1 & T2 & T3). clear IH. cbv zeta in *. destruct St as [t r w t' N M ->]. cbn [b_wait b_threads].
    pose proof (total_put _ _ _ t' N) as TP. pose proof (nth_error_In _ _ N) as It.
    assert (Up : exists d, (d + pend t' = pend t + match l with BSent _ (Lines l0) => match judged [] l0 with BLoad _ => 1 | _ => 0 end | _ => 0 end)%nat /\
      w <= Z.max wait 1 + 2 * Z.of_nat (k + d) /\ (forall c v, b_place t' = BStore c v -> v <= Z.max wait 1 + 2 * Z.of_nat (k + d)) /\
      (forall d', l = BSlept d' -> d' <= Z.max wait 1 + 2 * Z.of_nat (k + d))).
    { destruct t as [data term cs p]. cbn [bstep1] in M. destruct p as [|l0|l0|c|c v|c|l0|x].
      - injection M as <- <- <-. exists 0%nat. destruct r as [l0|[|z zs]]; unfold pend; cbn [b_place b_data]; repeat split; try lia; try discriminate.
        destruct (judged_cases data l0) as [(c & Bc & ->)|(NB & F)].
        + destruct (judged_cases [] l0) as [(c' & _ & ->)|(NB & _)]; [reflexivity|destruct (NB _ Bc)].
        + destruct (judged_cases [] l0) as [(c & Bc & _)|(_ & [(l' & _ & ->)|(e & _ & ->)])]; [destruct (NB _ Bc)|..]; destruct F as [(? & _ & ->)|(? & _ & ->)]; reflexivity.
      - injection M as <- <- <-. exists 0%nat. destruct (0 <? b_wait s); cbn [b_place].
        + repeat split; try lia; try discriminate; unfold pend; cbn; lia.
        + rewrite pend_judged. unfold pend. cbn [b_place b_data]. repeat split; try lia; try discriminate. intros c v E. destruct (Y _ _ _ _ E).
      - injection M as <- <- <-. exists 0%nat. rewrite pend_judged. unfold pend. cbn [b_place b_data]. repeat split; try lia.
        + intros c v E. destruct (Y _ _ _ _ E).
        + intros d' E. injection E as <-. lia.
      - injection M as <- <- <-. exists 0%nat. unfold pend. cbn [b_place]. repeat split; try lia; try discriminate. intros c' v E. injection E as _ <-. lia.
      - injection M as <- <- <-. exists 1%nat. unfold pend. cbn [b_place]. pose proof (T2 _ c v It eq_refl). repeat split; try lia; try discriminate.
      - injection M as <- <- <-. exists 0%nat. unfold pend. cbn [b_place]. repeat split; try lia; try discriminate. intros d' E. injection E as <-. lia.
      - exists 0%nat. destruct cs as [|c cs]; injection M as <- <- <-; unfold pend; cbn [b_place]; repeat split; try lia; try discriminate. destruct (c =? 515); lia.
      - discriminate. }
    destruct Up as (d & U0 & U1 & U2 & U3). exists (k + d)%nat. split; [|split; [exact U1|split]].
    + revert U0 En. generalize (match l with BSent _ (Lines l0) => match judged [] l0 with BLoad _ => 1 | _ => 0 end | _ => 0 end)%nat. intros z U0 En. lia.
    + intros t0 c v I E. apply in_put in I as [->|I]; [eauto|]. specialize (T2 _ _ _ I E). lia.
    + intros i d' I. apply in_app_iff in I as [I|[E|[]]].
      * specialize (T3 _ _ I). lia.
      * injection E as -> ->. auto.
Qed.
Lemma delay_bound wait jobs ls s n : 0 <= wait -> brun (bstart wait jobs) ls s -> busies ls n ->
  (0 <= b_wait s <= Z.max wait 1 + 2 * Z.of_nat n) /\ forall i d, In (i, BSlept d) ls -> 0 <= d <= Z.max wait 1 + 2 * Z.of_nat n.
Proof.
  intros W R B. destruct (delay_inv _ _ _ _ W R) as (D1 & _ & D3). destruct (bound_inv _ _ _ _ _ R B) as (k & K & T1 & _ & T3). cbv zeta in *. split; [lia|].
  intros i d I. specialize (D3 _ _ I). specialize (T3 _ _ I). lia.
Qed.

(** *** One thread *)
Fixpoint before (text : str) (wait : Z) (busy : list reply) : list event :=
  match busy with [] => [] | b :: bs => EWrite text (Some b) :: pause wait ++ ESleep (wait + 2) :: before text (wait + 2) bs end.
Lemma before_attempts text busy : forall wait last, attempts text wait busy last = before text wait busy ++ attempts text (wait + 2 * Z.of_nat (length busy)) [] last.
Proof.
  induction busy as [|b bs IH]; intros wait last.
  - cbn [length before List.app]. rewrite Z.add_0_r. reflexivity.
  - cbn [before attempts List.app]. f_equal. rewrite <- app_assoc. f_equal. cbn [List.app]. f_equal. rewrite IH. f_equal. replace (wait + 2 + 2 * Z.of_nat (length bs)) with (wait + 2 * Z.of_nat (length (b :: bs))) by (cbn [length]; lia). reflexivity.
Qed.
Lemma before_snoc text busy b : forall wait, before text wait (busy ++ [b]) = before text wait busy ++ EWrite text (Some b) :: pause (wait + 2 * Z.of_nat (length busy)) ++ [ESleep (wait + 2 * Z.of_nat (length busy) + 2)].
Proof.
  induction busy as [|c bs IH]; intros wait.
  - cbn [length before List.app]. rewrite Z.add_0_r. reflexivity.
  - cbn [before List.app]. f_equal. rewrite <- app_assoc. f_equal. cbn [List.app]. f_equal. rewrite IH. f_equal. cbn [length].
    replace (wait + 2 + 2 * Z.of_nat (length bs)) with (wait + 2 * Z.of_nat (S (length bs))) by lia. reflexivity.
Qed.
Lemma events_snoc ls j l : events_of (ls ++ [(j, l)]) = events_of ls ++ match l with BSent text r => [EWrite text (Some r)] | BSlept d => [ESleep d] | _ => [] end.
Proof. unfold events_of. rewrite flat_map_app. cbn. rewrite app_nil_r. reflexivity. Qed.
Definition single (data term : str) (w : Z) (evs : list event) (wait : Z) (t : bthread) : Prop :=
  b_data t = data /\ b_term t = term /\ exists busy codes, all_busy busy codes /\
    let text := data ++ term in let W := w + 2 * Z.of_nat (length busy) in
    let fresh := b_codes t = rev codes in
    match b_place t with
    | BSend => evs = before text w busy /\ wait = W /\ fresh
    | BTest ls => evs = before text w busy ++ [EWrite text (Some (Lines ls))] /\ wait = W /\ fresh
    | BPause ls => evs = before text w busy ++ [EWrite text (Some (Lines ls))] /\ wait = W /\ fresh /\ 0 < W
    | BLoad c => exists b, busy_reply c b /\ evs = before text w busy ++ EWrite text (Some b) :: pause W /\ wait = W /\ fresh
    | BStore c v => exists b, busy_reply c b /\ evs = before text w busy ++ EWrite text (Some b) :: pause W /\ wait = W /\ v = W /\ fresh
    | BAgain c => exists b, busy_reply c b /\ evs = before text w busy ++ EWrite text (Some b) :: pause W /\ wait = W + 2 /\ fresh
    | BReturn ls => exists r, evs = attempts text w busy r /\ not_busy r /\ outcome data r (Ok ls) /\
        exists popped, rev codes = popped ++ b_codes t /\ wait = match rev popped with [] => W | c :: _ => if c =? 515 then 1 else 0 end
    | BEnd x => exists r, evs = attempts text w busy r /\ not_busy r /\ outcome data r x /\
        wait = match codes, x with [], _ => w | c :: _, Ok _ => if c =? 515 then 1 else 0 | _, Err _ => W end
    end.
Lemma single_judged data term w evs wait cs ls busy codes : all_busy busy codes -> let W := w + 2 * Z.of_nat (length busy) in
  evs = before (data ++ term) w busy ++ EWrite (data ++ term) (Some (Lines ls)) :: pause W -> wait = W -> cs = rev codes ->
  single data term w evs wait (mkB data term cs (judged data ls)).
Proof.
  intros B W E Ew C. split; auto. split; auto. exists busy, codes. split; auto. cbv zeta. cbn [b_place b_codes]. fold W.
  assert (A : evs = attempts (data ++ term) w busy (Lines ls)) by (rewrite before_attempts; exact E).
  destruct (judged_cases data ls) as [(c & Bc & ->)|(NB & [(l & O & ->)|(e & O & ->)])].
  - exists (Lines ls). auto.
  - exists (Lines ls). repeat split; auto. exists []. split; auto.
  - exists (Lines ls). repeat split; auto. destruct codes as [|c cs']; [|exact Ew]. inversion B; subst busy. rewrite Ew. subst W. cbn. lia.
Qed.
Lemma single_step data term w evs wait t r wait' t' l : single data term w evs wait t -> bstep1 wait t r = Some (wait', t', l) ->
  single data term w (evs ++ match l with BSent text r => [EWrite text (Some r)] | BSlept d => [ESleep d] | _ => [] end) wait' t'.
Proof.
  intros (D & T & busy & codes & B & S) M. destruct t as [data' term' cs p]. cbn [b_data b_term b_codes b_place bstep1] in *. cbv zeta in S. subst data' term'.
  assert (Ln : length busy = length codes) by (clear - B; induction B; cbn; auto).
  destruct p as [|ls|ls|c|c v|c|ls|x].
  - destruct S as (E & Ew & C). injection M as <- <- <-. destruct r as [ls|ls].
    + split; auto. split; auto. exists busy, codes. split; auto. cbn. rewrite E. auto.
    + assert (Q : match ls with [] => BEnd (Err (TimeoutException None)) | _ => BEnd (Err (TimeoutException (Some ls))) end = BEnd (Err (TimeoutException (match ls with [] => None | _ => Some ls end)))) by (destruct ls; reflexivity).
      rewrite Q. split; auto. split; auto. exists busy, codes. split; auto. cbn [b_place b_codes]. cbv zeta. exists (NoReply ls).
      rewrite before_attempts, E. split; [reflexivity|]. split; [apply silent_not_busy|]. split; [apply silent_outcome|]. destruct codes; auto. destruct busy; [|discriminate]. rewrite Ew. cbn. lia.
  - destruct S as (E & Ew & C). injection M as <- <- <-. rewrite app_nil_r. destruct (Z.ltb_spec 0 wait) as [P|P].
    + split; auto. split; auto. exists busy, codes. split; auto. cbn. repeat split; auto. lia.
    + eapply single_judged; eauto. rewrite E. f_equal. unfold pause. destruct (Z.ltb_spec 0 (w + 2 * Z.of_nat (length busy))); [lia|reflexivity].
  - destruct S as (E & Ew & C & P). injection M as <- <- <-. eapply single_judged; eauto. rewrite E, <- app_assoc. cbn. unfold pause.
    destruct (Z.ltb_spec 0 (w + 2 * Z.of_nat (length busy))); [|lia]. rewrite Ew. reflexivity.
  - destruct S as (b & Bb & E & Ew & C). injection M as <- <- <-. rewrite app_nil_r. split; auto. split; auto. exists busy, codes. split; auto. cbn. exists b. auto.
  - destruct S as (b & Bb & E & Ew & Ev & C). injection M as <- <- <-. rewrite app_nil_r. split; auto. split; auto. exists busy, codes. split; auto. cbn [b_place b_codes]. exists b. subst v. auto.
  - destruct S as (b & Bb & E & Ew & C). injection M as <- <- <-. split; auto. split; auto. exists (busy ++ [b]), (codes ++ [c]). split; [apply Forall2_app; auto|]. cbn [b_place b_codes].
    rewrite before_snoc, E, Ew, <- app_assoc, app_length, rev_app_distr, C. cbn [length List.app rev]. repeat split; lia.
  - destruct S as (r0 & E & NB & O & popped & Pc & Ew). destruct cs as [|c cs]; injection M as <- <- <-; rewrite app_nil_r; (split; [auto|]; split; [auto|]; exists busy, codes; split; [auto|]); cbn [b_place b_codes].
    + exists r0. repeat split; auto. rewrite app_nil_r in Pc. subst popped. rewrite rev_involutive in Ew. rewrite Ew. destruct codes; auto. destruct busy; [|discriminate]. cbn. lia.
    + exists r0. repeat split; auto. exists (popped ++ [c]). rewrite rev_app_distr, <- app_assoc. cbn. auto.
  - discriminate.
Qed.
Lemma single_all wait data term ls s : brun (bstart wait [(data, term)]) ls s -> exists t, b_threads s = [t] /\ single data term wait (events_of ls) (b_wait s) t.
Proof.
  intros R. induction R as [|ls s j l s' R IH St].
  - exists (mkB data term [] BSend). split; auto. split; auto. split; auto. exists [], []. split; [constructor|]. cbn. repeat split; lia.
  - destruct IH as (t & Ts & S). destruct St as [t0 r w t' N M ->]. rewrite Ts in N. destruct j as [|[|j]]; try discriminate. injection N as <-.
    exists t'. rewrite Ts. split; [reflexivity|]. rewrite events_snoc. cbn [b_wait]. eapply single_step; eauto.
Qed.
Lemma alone wait data term ls s t x : brun (bstart wait [(data, term)]) ls s -> In t (b_threads s) -> b_place t = BEnd x ->
  exists busy codes last, all_busy busy codes /\ not_busy last /\ outcome data last x /\ events_of ls = attempts (data ++ term) wait busy last /\
    forall m rest, writeWait m = wait -> exists w', write_with data term true (mk_world m (busy ++ last :: rest) []) = Done x w' /\ trace w' = events_of ls /\ writeWait (dev w') = b_wait s.
Proof.
  intros R I E. destruct (single_all _ _ _ _ _ R) as (t0 & Ts & _ & _ & busy & codes & B & S). rewrite Ts in I. destruct I as [->|[]]. rewrite E in S. cbv zeta in S.
  destruct S as (last & Ev & NB & O & Ew). exists busy, codes, last. repeat split; auto. intros m rest Wm.
  destruct (retried data term busy codes last rest m [] x B NB O) as (w' & X1 & _ & X2 & _ & X3 & _). exists w'. split; auto. rewrite X2, X3, Wm, Ev, Ew. split; auto.
Qed.

(** ** Schedules *)
Fixpoint bplay (s : bstate) (ps : list (nat * reply)) : option (list (nat * blabel) * bstate) :=
  match ps with
  | [] => Some ([], s)
  | (i, r) :: rest =>
      match nth_error (b_threads s) i with
      | None => None
      | Some t =>
          match bstep1 (b_wait s) t r with
          | None => None
          | Some (w, t', l) =>
              match bplay (mkBS w (put_at i t' (b_threads s))) rest with Some (ls, s') => Some ((i, l) :: ls, s') | None => None end
          end
      end
  end.
Lemma play_run s0 ps : forall pre s ls s', brun s0 pre s -> bplay s ps = Some (ls, s') -> brun s0 (pre ++ ls) s'.
Proof.
  induction ps as [|[i r] ps IH]; intros pre s ls s' R P; cbn in P.
  - injection P as <- <-. rewrite app_nil_r. exact R.
  - destruct (nth_error (b_threads s) i) as [t|] eqn:N; [|discriminate]. destruct (bstep1 (b_wait s) t r) as [[[w t'] l]|] eqn:M; [|discriminate].
    destruct (bplay _ ps) as [[ls0 s0']|] eqn:P'; [|discriminate]. injection P as <- <-.
    replace (pre ++ (i, l) :: ls0) with ((pre ++ [(i, l)]) ++ ls0) by (rewrite <- app_assoc; reflexivity). eapply IH; [|exact P'].
    econstructor; [exact R|]. econstructor; eauto.
Qed.
Lemma play s ps ls s' : bplay s ps = Some (ls, s') -> brun s ls s'.
Proof. apply (play_run s ps []). constructor. Qed.

(** ** Two threads *)
Definition na : reply := NoReply [].
Lemma busy14_is : busy_reply 14 busy14.
Proof.
  destruct (judged_cases [] [lit "+CME ERROR: 14"]) as [(c & B & E)|(_ & [(? & _ & E)|(? & _ & E)])]; vm_compute in E; try discriminate.
  injection E as <-. exact B.
Qed.
Lemma busy515_is : busy_reply 515 busy515.
Proof.
  destruct (judged_cases [] [lit "+CMS ERROR: 515"]) as [(c & B & E)|(_ & [(? & _ & E)|(? & _ & E)])]; vm_compute in E; try discriminate.
  injection E as <-. exact B.
Qed.
Lemma good_not_busy : not_busy good.
Proof.
  destruct (judged_cases [] [lit "OK"]) as [(c & B & E)|(N & _)]; [vm_compute in E; discriminate|exact N].
Qed.
Lemma can_move s i t : nth_error (b_threads s) i = Some t -> (forall x, b_place t <> BEnd x) -> exists l s', bstep s i l s'.
Proof.
  intros N E. destruct (bstep1 (b_wait s) t na) as [[[w t'] l]|] eqn:M; [do 2 eexists; econstructor; eauto|].
  destruct t as [data term cs p]. cbn in M, E. destruct p; try discriminate M; [destruct cs; discriminate M|]. destruct (E x eq_refl).
Qed.
Lemma immediate_retry d1 t1 d2 t2 : exists ls s, brun (bstart 0 [(d1, t1); (d2, t2)]) ls s /\
  ls = [(0, BSent (d1 ++ t1) busy14); (1, BSent (d2 ++ t2) busy14); (0, BQuiet); (1, BQuiet);
        (0, BQuiet); (0, BRaised); (0, BSlept 2); (0, BSent (d1 ++ t1) good); (0, BQuiet); (0, BSlept 2);
        (1, BQuiet); (1, BRaised); (0, BReset); (1, BSlept 0); (1, BSent (d2 ++ t2) good)]%nat.
Proof.
  pose (ps := [(0, busy14); (1, busy14); (0, na); (1, na); (0, na); (0, na); (0, na); (0, good); (0, na); (0, na); (1, na); (1, na); (0, na); (1, na); (1, good)]%nat).
  destruct (bplay (bstart 0 [(d1, t1); (d2, t2)]) ps) as [[ls s]|] eqn:P; [|vm_compute in P; discriminate].
  exists ls, s. split; [eapply play; exact P|]. vm_compute in P. injection P as <- _. reflexivity.
Qed.
Lemma lost_raise d1 t1 d2 t2 : exists ls s, brun (bstart 0 [(d1, t1); (d2, t2)]) ls s /\ b_wait s = 2 /\
  ls = [(0, BSent (d1 ++ t1) busy14); (1, BSent (d2 ++ t2) busy14); (0, BQuiet); (1, BQuiet); (0, BQuiet); (1, BQuiet); (0, BRaised); (1, BRaised)]%nat.
Proof.
  pose (ps := [(0, busy14); (1, busy14); (0, na); (1, na); (0, na); (1, na); (0, na); (1, na)]%nat).
  destruct (bplay (bstart 0 [(d1, t1); (d2, t2)]) ps) as [[ls s]|] eqn:P; [|vm_compute in P; discriminate].
  exists ls, s. split; [eapply play; exact P|]. vm_compute in P. injection P as <- <-. split; reflexivity.
Qed.
Lemma slowed d1 t1 d2 t2 : exists ls s, brun (bstart 0 [(d1, t1); (d2, t2)]) ls s /\
  ls = [(0, BSent (d1 ++ t1) busy14); (0, BQuiet); (0, BQuiet); (0, BRaised); (1, BSent (d2 ++ t2) good); (1, BQuiet); (1, BSlept 2); (1, BQuiet)]%nat /\
  exists t, nth_error (b_threads s) 1 = Some t /\ b_place t = BEnd (Ok [lit "OK"]).
Proof.
  pose (ps := [(0, busy14); (0, na); (0, na); (0, na); (1, good); (1, na); (1, na); (1, na)]%nat).
  destruct (bplay (bstart 0 [(d1, t1); (d2, t2)]) ps) as [[ls s]|] eqn:P; [|vm_compute in P; discriminate].
  exists ls, s. split; [eapply play; exact P|]. vm_compute in P. injection P as <- <-. split; [reflexivity|]. eexists. split; reflexivity.
Qed.
(** the delay that remains: the call that returns last decides, whoever was first *)
Lemma last_decides d1 t1 d2 t2 w : w = 0 \/ w = 1 -> exists ls s, brun (bstart 0 [(d1, t1); (d2, t2)]) ls s /\ all_returned s /\ b_wait s = w /\
  sent_by 0 ls = [(d1 ++ t1, busy515); (d1 ++ t1, good)] /\ sent_by 1 ls = [(d2 ++ t2, busy14); (d2 ++ t2, good)].
Proof.
  intros W.
  pose (fin := if w =? 0 then [(0, na); (0, na); (1, na); (1, na)]%nat else [(1, na); (1, na); (0, na); (0, na)]%nat).
  destruct (bplay (bstart 0 [(d1, t1); (d2, t2)]) ([(0, busy515); (0, na); (0, na); (0, na); (0, na); (0, good); (0, na); (0, na); (1, busy14); (1, na); (1, na); (1, na); (1, na); (1, na); (1, good); (1, na); (1, na)]%nat ++ fin)) as [[ls s]|] eqn:P.
  - exists ls, s. split; [eapply play; exact P|]. destruct W as [-> | ->]; vm_compute in P; injection P as <- <-;
      (split; [intros t [<-|[<-|[]]]; eexists; reflexivity|]; repeat split; reflexivity).
  - destruct W as [-> | ->]; vm_compute in P; discriminate.
Qed.
