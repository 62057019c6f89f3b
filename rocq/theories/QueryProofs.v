(** networkName and smsc. *)
From Verif Require Import Base RegexModel RegexProofs UtilModel UtilSpec UtilProofs ModemCore ModemSpec WriteProofs MonadProofs SmsModel SendSpec SendProofs LangProofs CoverageSpec CoverageProofs.

(** the first matching line of a response, for a pattern and what its lines say *)
Lemma line_matching_says {X} (r : re) (says : str -> X -> Prop) (val : way -> X) ls :
  (forall l x, says l x -> exists m, re_match r l = Some m /\ val m = x) ->
  (forall l m, re_match r l = Some m -> says l (val m)) ->
  match line_matching r ls with Some m => first_says says ls (val m) | None => nothing_said says ls end.
Proof.
  intros H1 H2. unfold line_matching. induction ls as [|l ls IH]; cbn [lineMatchingPattern]; [constructor|].
  destruct (re_match r l) as [m|] eqn:E.
  - exists [], l, ls. repeat split; auto.
  - assert (N : forall x, ~ says l x) by (intros x S; apply H1 in S as (m & M & _); congruence).
    destruct (lineMatchingPattern (re_match r) ls) as [m|].
    + destruct IH as (b & l' & a & -> & S & F). exists (l :: b), l', a. repeat split; auto.
    + constructor; auto.
Qed.
Lemma first_says_unique {X} (says : str -> X -> Prop) ls x y : (forall l x y, says l x -> says l y -> x = y) ->
  first_says says ls x -> first_says says ls y -> x = y.
Proof.
  intros U (b1 & l1 & a1 & -> & C1 & F1) (b2 & l2 & a2 & E & C2 & F2). revert b2 E F2. induction b1 as [|z b1 IH]; intros [|w b2] E F2; cbn in E.
  - injection E as -> ->. eapply U; eauto.
  - injection E as -> E. inversion F2; subst. exfalso. eapply H1; eauto.
  - injection E as -> E. inversion F1; subst. exfalso. eapply H1; eauto.
  - injection E as -> E. inversion F1; inversion F2; subst. eapply IH; eauto.
Qed.
Lemma first_says_some {X} (says : str -> X -> Prop) ls x : first_says says ls x -> nothing_said says ls -> False.
Proof. intros (b & l & a & -> & C & _) N. apply Forall_app in N as [_ N]. inversion N; subst. eapply H1; eauto. Qed.

(** split at the last of a character *)
Lemma last_split c (a b x y : str) : ~ In c x -> ~ In c y -> a ++ c :: x = b ++ c :: y -> a = b /\ x = y.
Proof.
  intros Nx Ny E. assert (R : rev x ++ c :: rev a = rev y ++ c :: rev b).
  { assert (rev (a ++ c :: x) = rev (b ++ c :: y)) by congruence. rewrite !rev_app_distr in H. cbn in H. rewrite <- !app_assoc in H. auto. }
  apply (span_unique (c_not c)) in R as [R1 R2]; try (apply c_not_not_in; rewrite <- in_rev; auto).
  - injection R2 as R2. split; [rewrite <- (rev_involutive a), R2, rev_involutive; auto|rewrite <- (rev_involutive x), R1, rev_involutive; auto].
  - cbn. unfold c_not. rewrite Z.eqb_refl. auto.
  - cbn. unfold c_not. rewrite Z.eqb_refl. auto.
Qed.
Lemma digits_no_quote c ds : is_digit c = false -> Forall (fun c => is_digit c = true) ds -> ~ In c ds.
Proof. intros N F I. rewrite Forall_forall in F. apply F in I. congruence. Qed.
Lemma cops_match line name : cops_line line name -> exists m, re_match COPS_REGEX line = Some m /\ group 3 m = name.
Proof.
  intros (m & f & comma & ds & nl & -> & Dm & Df & Nn & N10 & C & D & E).
  exists (lit "+COPS: " ++ [m; 44; f; 44; 34] ++ name ++ 34 :: comma ++ ds, [[m]; [f]; name], nl). split; [|reflexivity].
  assert (Q : forall comma ds nl : str, (comma = [] \/ comma = [44]) -> Forall (fun c => is_digit c = true) ds -> line_end nl -> ~ In 34 (comma ++ ds ++ nl)).
  { intros co d n Hc Hd He I. rewrite !in_app_iff in I. destruct I as [I|[I|I]].
    - destruct Hc as [->| ->]; [destruct I|destruct I as [I|[]]; discriminate].
    - revert I. apply digits_no_quote; auto.
    - destruct He as [->| ->]; [destruct I|destruct I as [I|[]]; discriminate]. }
  assert (TU : forall co co' d d' n n' : str, (co = [] \/ co = [44]) -> (co' = [] \/ co' = [44]) -> Forall (fun c => is_digit c = true) d -> Forall (fun c => is_digit c = true) d' ->
     line_end n -> line_end n' -> co ++ d ++ n = co' ++ d' ++ n' -> co = co' /\ d = d' /\ n = n').
  { intros co co' d d' n n' Hc Hc' Hd Hd' He He' X.
    assert (X' : co = co' /\ d ++ n = d' ++ n').
    { assert (Hno : forall d n : str, Forall (fun c => is_digit c = true) d -> line_end n -> forall z, d ++ n <> 44 :: z).
      { intros d0 n0 F0 L0 z Y. destruct F0 as [|c d0 Hc0 F0]; [destruct L0 as [->| ->]; discriminate|]. injection Y as -> _. discriminate. }
      destruct Hc as [->| ->], Hc' as [->| ->]; cbn in X; auto; [exfalso; exact (Hno _ _ Hd He _ X)|exfalso; symmetry in X; exact (Hno _ _ Hd' He' _ X)|].
      injection X as X. auto. }
    destruct X' as [-> X']. apply (span_unique is_digit) in X' as [-> ->]; auto.
    - destruct He as [->| ->]; cbn; auto.
    - destruct He' as [->| ->]; cbn; auto. }
  apply re_match_unique.
  - appn. auto.
  - unfold COPS_REGEX. apply seq_lit. eexists. split; [reflexivity|]. apply seq_gcls. exists m, ([44; f; 44; 34] ++ name ++ 34 :: comma ++ ds), [[f]; name]. repeat split; auto.
    apply seq_lit. exists ([f; 44; 34] ++ name ++ 34 :: comma ++ ds). split; auto. apply seq_gcls. exists f, ([44; 34] ++ name ++ 34 :: comma ++ ds), [name]. repeat split; auto.
    apply seq_lit. exists (name ++ 34 :: comma ++ ds). split; auto. apply seq_gplus. exists name, (34 :: comma ++ ds), []. repeat split; auto; [apply c_not_not_in; auto|].
    apply seq_lit. exists (comma ++ ds). split; auto. apply seq_opt. exists comma, ds. split; auto. split; [destruct C as [->| ->]; eauto|].
    apply seq_star. exists ds, []. rewrite app_nil_r. repeat split; auto.
  - intros t' g' rest' Es L. unfold COPS_REGEX in L. lang_inv L. rewrite <- !app_assoc in Es. cbn in Es. injection Es as -> -> Es. appn_in Es.
    apply (c_not_not_in 10) in F1.
    assert (C1 : a0 = [] \/ a0 = [44]) by (destruct F2 as [->|(x & -> & X)]; auto; right; apply Z.eqb_eq in X; subst; auto).
    apply last_split in Es as [-> Es]; [|apply Q; auto|apply Q; auto].
    apply TU in Es as (-> & -> & ->); auto. rewrite app_nil_r. auto.
Qed.
Lemma cops_match_inv line m : re_match COPS_REGEX line = Some m -> cops_line line (group 3 m).
Proof.
  destruct m as [[t g] rest]. intro H. apply re_match_some in H as [-> L]. unfold COPS_REGEX in L. lang_inv L. unfold group. cbn [groups fst snd nth Nat.sub].
  exists c, c0, a0, a1, rest. repeat split; auto.
  - appn. auto.
  - apply (c_not_not_in 10) in F1. auto.
  - destruct F2 as [->|(x & -> & X)]; auto. right. apply Z.eqb_eq in X. subst. auto.
Qed.
Lemma csca_match line n : csca_line line n -> exists m, re_match CSCA_REGEX line = Some m /\ group 1 m = n.
Proof.
  intros (sp & ds & nl & -> & B & Nn & N44 & [Nd D] & E).
  exists (lit "+CSCA:" ++ sp ++ 34 :: n ++ [34; 44] ++ ds, [n; ds], nl). split; [|reflexivity]. apply re_match_unique.
  - appn. auto.
  - unfold CSCA_REGEX. apply seq_lit. eexists. split; [reflexivity|]. apply seq_star. exists sp, (34 :: n ++ [34; 44] ++ ds). repeat split; auto.
    apply seq_lit. exists (n ++ [34; 44] ++ ds). split; auto. apply seq_gplus. exists n, ([34; 44] ++ ds), [ds]. repeat split; auto; [apply c_not_not_in; auto|].
    apply seq_lit. exists ds. split; auto. apply seq_gplus. exists ds, [], []. rewrite app_nil_r. repeat split; auto.
  - intros t' g' rest' Es L. unfold CSCA_REGEX in L. lang_inv L. apply (c_not_not_in 44) in F0. rewrite <- !app_assoc in Es. apply app_inv_head in Es. cbn in Es. appn_in Es.
    apply (span_unique is_space) in Es as [-> Es]; auto; [|reflexivity|reflexivity]. injection Es as Es.
    assert (Es' : (n ++ [34]) ++ 44 :: ds ++ nl = (a0 ++ [34]) ++ 44 :: a1 ++ rest') by (rewrite <- !app_assoc; auto).
    apply (span_unique (c_not 44)) in Es' as [X Es']; [| | |reflexivity|reflexivity].
    2:{ apply c_not_not_in. rewrite in_app_iff. intros [I|[I|[]]]; [auto|discriminate]. }
    2:{ apply c_not_not_in. rewrite in_app_iff. intros [I|[I|[]]]; [auto|discriminate]. }
    apply app_inj_tail in X as [-> _]. injection Es' as Es'. destruct (digits_end_unique ds nl a1 rest') as [-> ->]; auto; [split; auto|split; auto|]. rewrite app_nil_r. auto.
Qed.
Lemma csca_match_inv line m : re_match CSCA_REGEX line = Some m -> csca_line line (group 1 m).
Proof.
  destruct m as [[t g] rest]. intro H. apply re_match_some in H as [-> L]. unfold CSCA_REGEX in L. lang_inv L. unfold group. cbn [groups fst snd nth Nat.sub].
  exists a, a1, rest. apply (c_not_not_in 44) in F0. repeat split; auto. appn. auto.
Qed.

Lemma network_spec w x w' : networkName w = Done (Ok x) w' -> exists busy codes ls, script w = busy ++ Lines ls :: script w' /\ all_busy busy codes /\ good_answer ls /\
  match x with Some name => first_says cops_line ls name | None => nothing_said cops_line ls end.
Proof.
  unfold networkName. intro H. apply bind_ok in H as (ls & w1 & W & H). injection H as <- <-. apply ask_ok in W as (busy & codes & E & B & G & _).
  exists busy, codes, ls. repeat split; auto.
  pose proof (line_matching_says COPS_REGEX cops_line (group 3) ls cops_match cops_match_inv) as L. destruct (line_matching COPS_REGEX ls); auto.
Qed.
Lemma smsc_cached w n : smscNumber (dev w) = Some n -> get_smsc w = Done (Ok (Some n)) w.
Proof. intro E. unfold get_smsc, mbind, get. rewrite E. auto. Qed.
Lemma smsc_asked w x w' : smscNumber (dev w) = None -> get_smsc w = Done (Ok x) w' ->
  match x with
  | Some n => exists busy codes ls, script w = busy ++ Lines ls :: script w' /\ all_busy busy codes /\ good_answer ls /\ first_says csca_line ls n /\ smscNumber (dev w') = Some n
  | None => smscNumber (dev w') = None /\ ((exists busy codes ls, script w = busy ++ Lines ls :: script w' /\ all_busy busy codes /\ good_answer ls /\ nothing_said csca_line ls) \/
      exists busy codes before line, script w = busy ++ Lines (before ++ [line]) :: script w' /\ all_busy busy codes /\ cm_error 83 330 line)
  end.
Proof.
  intros N H. unfold get_smsc in H. unfold mbind at 1, get in H. rewrite N in H. unfold mbind at 1, try_except in H.
  unfold mbind at 1 in H. destruct (write (lit "AT+CSCA?") w) as [[ls|e] w1|w1] eqn:W; [| |discriminate].
  - assert (K : smscNumber (dev w1) = None).
    { pose proof (keeps_write smscNumber (lit "AT+CSCA?") CR true ltac:(reflexivity) w) as K. unfold write in W. rewrite W in K. cbn in K. congruence. }
    cbn [ret] in H. apply ask_ok in W as (busy & codes & E & B & G & _).
    pose proof (line_matching_says CSCA_REGEX csca_line (group 1) ls csca_match csca_match_inv) as L. destruct (line_matching CSCA_REGEX ls) as [m|].
    + unfold mbind, modify, ret in H. injection H as <- <-. cbn [script dev] in *. exists busy, codes, ls. repeat split; auto.
    + injection H as <- <-. split; auto. left. exists busy, codes, ls. auto.
  - assert (K : smscNumber (dev w1) = None).
    { pose proof (keeps_write smscNumber (lit "AT+CSCA?") CR true ltac:(reflexivity) w) as K. unfold write in W. rewrite W in K. cbn in K. congruence. }
    destruct e; try discriminate. cbn [ret] in H. injection H as <- <-. split; auto. right.
    apply write_done in W as (busy & codes & r & E & B & NB & O & _). inversion O; subst. match goal with X : exception_for _ _ _ _ |- _ => inversion X; subst end.
    exists busy, codes, ls, line. auto.
Qed.

(** ** The queries answer whenever the modem does *)
Lemma says_unique {X} (says : str -> X -> Prop) ls x y : (forall l a b, says l a -> says l b -> a = b) ->
  first_says says ls x -> first_says says ls y -> x = y.
Proof.
  intros U (b & l & a & -> & S & F) (b' & l' & a' & E & S' & F'). revert b' E F'. induction b as [|c b IH]; intros [|c' b'] E F'; cbn [Datatypes.app] in E.
  - injection E as <- _. eapply U; eauto.
  - injection E as <- _. apply Forall_inv in F'. destruct (F' _ S).
  - injection E as <- _. apply Forall_inv in F. destruct (F _ S').
  - injection E as _ E. apply Forall_inv_tail in F, F'. eauto.
Qed.
Lemma says_something {X} (says : str -> X -> Prop) ls x : first_says says ls x -> ~ nothing_said says ls.
Proof. intros (b & l & a & -> & S & _) N. apply Forall_app in N as [_ N]. apply Forall_inv in N. exact (N _ S). Qed.
Lemma cops_one l a b : cops_line l a -> cops_line l b -> a = b.
Proof. intros A B. apply cops_match in A as (m & E & <-). apply cops_match in B as (m' & E' & <-). congruence. Qed.
Lemma csca_one l a b : csca_line l a -> csca_line l b -> a = b.
Proof. intros A B. apply csca_match in A as (m & E & <-). apply csca_match in B as (m' & E' & <-). congruence. Qed.
Lemma said_one {X} (says : str -> X -> Prop) ls (x y : option X) : (forall l a b, says l a -> says l b -> a = b) ->
  match x with Some a => first_says says ls a | None => nothing_said says ls end ->
  match y with Some a => first_says says ls a | None => nothing_said says ls end -> x = y.
Proof.
  intros U. destruct x, y; auto; intros A B.
  - f_equal. eapply says_unique; eauto.
  - exfalso. eapply says_something; eauto.
  - exfalso. eapply says_something; eauto.
Qed.
Lemma network_exact w x : (exists w', networkName w = Done (Ok x) w') <->
  exists busy codes ls rest, script w = busy ++ Lines ls :: rest /\ all_busy busy codes /\ good_answer ls /\
    match x with Some name => first_says cops_line ls name | None => nothing_said cops_line ls end.
Proof.
  split.
  - intros [w' H]. apply network_spec in H as (busy & codes & ls & E & R). exists busy, codes, ls, (script w'). auto.
  - intros (busy & codes & ls & rest & E & B & G & S). destruct (ask_good (lit "AT+COPS?") w busy codes ls rest E B G) as (w' & W & _). exists w'.
    unfold networkName. rewrite (bind_run _ _ _ _ _ W). unfold ret. do 2 f_equal.
    pose proof (line_matching_says COPS_REGEX cops_line (group 3) ls cops_match cops_match_inv) as L.
    apply (said_one cops_line ls); [exact cops_one| |exact S]. destruct (line_matching COPS_REGEX ls); exact L.
Qed.
Lemma smsc_exact w x : smscNumber (dev w) = None -> (exists w', get_smsc w = Done (Ok x) w') <->
  exists busy codes ls rest, script w = busy ++ Lines ls :: rest /\ all_busy busy codes /\
    (good_answer ls /\ match x with Some n => first_says csca_line ls n | None => nothing_said csca_line ls end \/
     x = None /\ exists before line, ls = before ++ [line] /\ cm_error 83 330 line).
Proof.
  intro N. split.
  - intros [w' H]. apply smsc_asked in H; auto. destruct x as [n|].
    + destruct H as (busy & codes & ls & E & B & G & S & _). exists busy, codes, ls, (script w'). auto 6.
    + destruct H as (_ & [(busy & codes & ls & E & B & G & S)|(busy & codes & before & line & E & B & C)]).
      * exists busy, codes, ls, (script w'). auto 6.
      * exists busy, codes, (before ++ [line]), (script w'). repeat split; auto. right. eauto 6.
  - intros (busy & codes & ls & rest & E & B & H). unfold get_smsc. unfold mbind at 1, get. rewrite N. unfold mbind at 1, try_except.
    destruct H as [(G & S)|(-> & before & line & -> & C)].
    + destruct (ask_good (lit "AT+CSCA?") w busy codes ls rest E B G) as (w1 & W & _). rewrite (bind_run _ _ _ _ _ W). cbn [ret].
      pose proof (line_matching_says CSCA_REGEX csca_line (group 1) ls csca_match csca_match_inv) as L.
      assert (Q : x = match line_matching CSCA_REGEX ls with Some m => Some (group 1 m) | None => None end).
      { apply (said_one csca_line ls); [exact csca_one|exact S|]. destruct (line_matching CSCA_REGEX ls); exact L. }
      subst x. destruct (line_matching CSCA_REGEX ls) as [m|]; eexists; reflexivity.
    + assert (W : write (lit "AT+CSCA?") w = Done (Err (SmscNumberUnknownError (lit "AT+CSCA?") 330))
        (mk_world (set_writeWait (wait_after (Err (SmscNumberUnknownError (lit "AT+CSCA?") 330)) (writeWait (dev w)) codes) (dev w)) rest (trace w ++ attempts (lit "AT+CSCA?" ++ CR) (writeWait (dev w)) busy (Lines (before ++ [line]))))).
      { apply write_done. exists busy, codes, (Lines (before ++ [line])). cbn [script dev trace]. repeat split; auto.
        - intros code (Hb & ls' & line' & k & Q & C'). injection Q as Q. apply app_inj_tail in Q as [-> ->]. destruct (cm_unique _ _ _ _ _ C C') as [_ <-]. destruct Hb; discriminate.
        - eapply oc_code; [exact C|intros [|]; discriminate|]. constructor. }
      unfold mbind at 1. rewrite W. eexists. reflexivity.
Qed.
