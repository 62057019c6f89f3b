(** Callbacks of the application: notifications about calls. *)
From Verif Require Import Base RegexModel RegexProofs UtilModel UtilSpec UtilProofs ModemCore ModemSpec WriteProofs MonadProofs SendSpec SendProofs TrackSpec TrackProofs CoverageSpec CoverageProofs ReadProofs QueryProofs LangProofs ModemFinal SmsModel StoreSpec
  CallModel NotifyModel PollModel PollSpec BookSpec BookProofs CallProofs CallFinal CallbackModel CallbackSpec CallbackProofs CallbackFinal CallbackCalls.

Section Told.
Context (cl : client).
Definition acts_with (k : M unit) (n : news) : Prop := forall w r, sound_book (book_of (dev w)) -> means (book_of (dev w)) n r ->
  k w = match r with Some r => handles_report_with cl r w | None => Done (Ok tt) w end.
Lemma with_report k r : (forall w, k w = handles_report_with cl r w) -> acts_with k (News r).
Proof. intros E w r' _ H. inversion H as [r0 E0| | |w0 _ [X|X] E0]; subst; auto; discriminate X. Qed.
Lemma with_initiated d t g : is_digit d = true -> is_digit t = true -> acts_with (handleCallInitiated (Some ([d] :: [t] :: g)) 0 1) (News (Initiated (d - 48) (t - 48))).
Proof.
  intros D T. apply with_report. intro w. cbn [handles_report_with]. unfold handleCallInitiated, mbind, get. destruct (dialEvent (dev w)); auto.
  rewrite int_digit by auto. unfold int_of, lift. cbn [nth_error]. rewrite py_int_digits by (split; [discriminate|auto]). reflexivity.
Qed.
Lemma with_initiated1 d : is_digit d = true -> acts_with (handleCallInitiated (Some [[d]]) 0 1) (News (Initiated (d - 48) 1)).
Proof.
  intros D. apply with_report. intro w. cbn [handles_report_with]. unfold handleCallInitiated, mbind, get. destruct (dialEvent (dev w)); auto.
  rewrite int_digit by auto. reflexivity.
Qed.
Lemma with_answered d t g : is_digit d = true -> acts_with (handleCallAnswered_with cl (Some ([d] :: t :: g)) 0) (News (Answered (d - 48))).
Proof. intros D. apply with_report. intro w. cbn [handles_report_with handleCallAnswered_with]. unfold mbind at 1. rewrite int_digit by auto. reflexivity. Qed.
Lemma with_ended ds g : digits ds -> acts_with (handleCallEnded_with cl (Some (ds :: g)) None false) (News (CallEnded (Some (dec_value ds)))).
Proof. intros D. apply with_report. intro w. cbn [handles_report_with]. unfold handleCallEnded_with, mbind at 1. unfold mbind at 1. rewrite int_digits by auto. reflexivity. Qed.
Lemma first_one b x y : first_unanswered b x -> first_unanswered b y -> x = y.
Proof.
  assert (G : forall (t1 : list (Z * nat)) e t2 t1' e' t2', t1 ++ e :: t2 = t1' ++ e' :: t2' -> outgoing_unanswered b (snd e) -> Forall (fun e : Z * nat => ~ outgoing_unanswered b (snd e)) t1 ->
    outgoing_unanswered b (snd e') -> Forall (fun e : Z * nat => ~ outgoing_unanswered b (snd e)) t1' -> e = e').
  { induction t1 as [|h t1 IH]; intros e t2 t1' e' t2' E O F O' F'; destruct t1' as [|h' t1']; cbn in E; injection E as E1 E2; auto.
    - subst. inversion F'. contradiction.
    - subst. inversion F. contradiction.
    - inversion F; inversion F'; subst. eapply IH; eauto. }
  intros [t1 id n t2 E O F|F] [t1' id' n' t2' E' O' F'|F']; auto.
  - f_equal. rewrite E in E'. eapply (G _ _ _ _ _ _ E'); eauto.
  - rewrite E in F'. apply Forall_app in F' as [_ F']. inversion F'. contradiction.
  - rewrite E' in F. apply Forall_app in F as [_ F]. inversion F. contradiction.
Qed.
Lemma with_some_answered : acts_with (handleCallAnswered_with cl (Some []) 0) SomeAnswered.
Proof.
  intros w r Sd Me. cbn [handleCallAnswered_with]. unfold mbind, get, find_call. pose proof (find_first _ Sd) as F. unfold waits in F.
  destruct (find _ (activeCalls (dev w))) as [[id n]|]; cbn [option_map snd].
  - destruct F as (F & G & _). inversion Me as [|id' n' F'| |? F']; subst; pose proof (first_one _ _ _ F F') as E; [|discriminate E]. injection E as <- <-.
    cbn [handles_report_with handleCallAnswered_with]. unfold answered_by_id_with, mbind, get. rewrite G. auto.
  - inversion Me as [|id' n' F'| |? F']; subst; pose proof (first_one _ _ _ F F') as E; [discriminate E|]. reflexivity.
Qed.
Lemma with_some_rejected : acts_with (handleCallRejected_with cl (Some []) None) SomeRejected.
Proof.
  intros w r Sd Me. unfold handleCallRejected_with, handleCallEnded_with, mbind at 1. unfold mbind at 1, get at 1, find_call. cbn beta iota. pose proof (find_first _ Sd) as F.
  rewrite (find_ext _ (fun e => waits (the_call (dev w) (snd e)))) by (intro e; unfold waits; cbn; apply andb_comm).
  destruct (find _ (activeCalls (dev w))) as [[id n]|]; cbn [option_map snd].
  - destruct F as (F & G & I). inversion Me as [| |id' n' F'|? F']; subst; pose proof (first_one _ _ _ F F') as E; [|discriminate E]. injection E as <- <-. cbn [ret]. reflexivity.
  - inversion Me as [| |id' n' F'|? F']; subst; pose proof (first_one _ _ _ F F') as E; [discriminate E|]. reflexivity.
Qed.
Theorem news_with t line : match try_updates (call_updates_with cl t) line with
  | Some k => exists n, call_news t line n /\ acts_with k n
  | None => forall n, ~ call_news t line n
  end.
Proof.
  destruct t; cbn [call_updates_with try_updates].
  - intros n H. inversion H.
  - next_re line R1; [|next_re line R2; [|next_re line R3]].
    + apply re_match_some in R1 as [-> L]. lang_inv L. exists (News (Initiated (c - 48) (c0 - 48))). split; [|apply with_initiated; auto].
      appn. apply (cn_orig c c0 rest); auto.
    + apply re_match_some in R2 as [-> L]. lang_inv L. exists (News (Answered (c - 48))). split; [|apply with_answered; auto].
      appn. apply (cn_conn c c0 rest); auto.
    + apply re_match_some in R3 as [-> L]. apply seq_lit in L as (t1 & -> & L). apply seq_gcls in L as (d & t2 & g2 & -> & -> & D & L). apply seq_lit in L as (t3 & -> & L).
      apply seq_gcls in L as (d2 & t4 & g4 & -> & -> & D2 & L). apply seq_lit in L as (t5 & -> & L). apply seq_gpp in L as (a & c & t6 & g6 & -> & -> & Fa & L). apply seq_lit in L as (t7 & -> & L).
      apply seq_gpp in L as (b & e & t8 & g8 & -> & -> & Fb & L). apply end_eol in L as (-> & -> & L). exists (News (CallEnded (Some (d - 48)))). split.
      * replace ((lit "^CEND:" ++ d :: lit "," ++ d2 :: lit "," ++ (a ++ [c]) ++ lit "," ++ (b ++ [e]) ++ []) ++ rest) with (lit "^CEND:" ++ [d; 44; d2; 44] ++ (a ++ [c]) ++ [44] ++ (b ++ [e]) ++ rest).
        -- apply cn_cend; auto; split; auto; intro X; symmetry in X; apply app_cons_not_nil in X; auto.
        -- rewrite app_nil_r. appn. reflexivity.
      * apply (with_ended [d]). split; [discriminate|auto].
    + intros n H. inversion H as [d t nl D T E|d t nl D T E|d t ds ds2 nl D T [N1 D1] [N2 D2] E| | | | | |]; subst.
      * eapply (proj1 (re_match_none _ _) R1 (lit "^ORIG:" ++ [d; 44; t]) [[d]; [t]] nl); [appn; auto|]. pl. pc. pl. pc. pend.
      * eapply (proj1 (re_match_none _ _) R2 (lit "^CONN:" ++ [d; 44; t]) [[d]; [t]] nl); [appn; auto|]. pl. pc. pl. pc. pend.
      * destruct (exists_last N1) as (a & c & ->). destruct (exists_last N2) as (b & e & ->).
        eapply (proj1 (re_match_none _ _) R3 (lit "^CEND:" ++ [d; 44; t; 44] ++ (a ++ [c]) ++ [44] ++ (b ++ [e])) [[d]; [t]; [c]; [e]] nl); [appn; auto|]. pl. pc. pl. pc. pl.
        apply seq_gpp. do 4 eexists. split; [reflexivity|]. split; [reflexivity|]. split; [assumption|]. pl. apply seq_gpp. exists b, e, [], []. rewrite app_nil_r. split; [reflexivity|]. split; [reflexivity|]. split; [assumption|]. pend.
  - next_re line R1; [|next_re line R2; [|next_re line R3]].
    + apply re_match_some in R1 as [-> L]. lang_inv L. exists (News (Initiated (c - 48) 1)). split; [|apply with_initiated1; auto].
      appn. apply (cn_wind5 c rest); auto.
    + apply re_match_some in R2 as [-> L]. apply lit_end in L as (-> & -> & L). exists SomeAnswered. split; [apply cn_ok; auto|apply with_some_answered].
    + apply re_match_some in R3 as [-> L]. lang_inv L. exists (News (CallEnded (Some (c - 48)))). split; [|apply (with_ended [c]); split; [discriminate|auto]].
      appn. apply (cn_wind6 c rest); auto.
    + intros n H. inversion H as [| | |d nl D E|nl E|d nl D E| | |]; subst.
      * eapply (proj1 (re_match_none _ _) R1 (lit "+WIND: 5," ++ [d]) [[d]] nl); [appn; auto|]. pl. pc. pend.
      * eapply (proj1 (re_match_none _ _) R2 (lit "OK") [] nl); [appn; auto|]. pl. pend.
      * eapply (proj1 (re_match_none _ _) R3 (lit "+WIND: 6," ++ [d]) [[d]] nl); [appn; auto|]. pl. pc. pend.
  - next_re line R1; [|next_re line R2; [|next_re line R3]].
    + apply re_match_some in R1 as [-> L]. apply lit_end in L as (-> & -> & L). exists SomeAnswered. split; [apply cn_connect; auto|apply with_some_answered].
    + apply re_match_some in R2 as [-> L]. lang_inv L. exists (News (CallEnded (Some (dec_value a0)))). split; [|apply with_ended; split; auto].
      replace ((lit "HANGUP:" ++ a ++ a0 ++ []) ++ rest) with (lit "HANGUP:" ++ a ++ a0 ++ rest) by (rewrite app_nil_r; appn; auto). apply cn_hangup; auto. split; auto.
    + apply re_match_some in R3 as [-> L]. apply lit_end in L as (-> & -> & L). exists SomeRejected. split; [apply cn_zte_ok; auto|apply with_some_rejected].
    + intros n H. inversion H as [| | | | | |nl E|sp ds nl B [N D] E|nl E]; subst.
      * eapply (proj1 (re_match_none _ _) R1 (lit "CONNECT") [] nl); [appn; auto|]. pl. pend.
      * eapply (proj1 (re_match_none _ _) R2 (lit "HANGUP:" ++ sp ++ ds) [ds] nl); [appn; auto|]. pl. apply seq_star. do 2 eexists. split; [reflexivity|]. split; [assumption|].
        apply seq_gplus. exists ds, [], []. rewrite app_nil_r. split; [reflexivity|]. split; [reflexivity|]. split; auto. split; auto. pend.
      * eapply (proj1 (re_match_none _ _) R3 (lit "OK") [] nl); [appn; auto|]. pl. pend.
Qed.
Lemma unrelated_next_with lines line rest w : unrelated (callUpdates (dev w)) line -> notify_each_with cl lines (line :: rest) w = notify_each_with cl lines rest w.
Proof.
  intros (R & P & N). cbn [notify_each_with].
  destruct (contains line (lit "RING")) eqn:E1; [apply contains_iff in E1; tauto|].
  destruct (startswith line (lit "+CMTI")) eqn:E2; [apply startswith_app in E2 as [r E]; destruct (P r); tauto|].
  destruct (startswith line (lit "+CUSD")) eqn:E3; [apply startswith_app in E3 as [r E]; destruct (P r); tauto|].
  destruct (startswith line (lit "+CDSI")) eqn:E4; [apply startswith_app in E4 as [r E]; destruct (P r); tauto|].
  unfold mbind, get. pose proof (news_with (callUpdates (dev w)) line) as S. destruct (try_updates _ line); auto. destruct S as (n & S & _). destruct (N _ S).
Qed.
Lemma unrelated_skip_with lines before rest w : Forall (unrelated (callUpdates (dev w))) before -> notify_each_with cl lines (before ++ rest) w = notify_each_with cl lines rest w.
Proof. induction 1 as [|l before H _ IH]; auto. cbn [app]. rewrite unrelated_next_with; auto. Qed.
Theorem noted_with before line after n r w : sound_book (book_of (dev w)) -> Forall (unrelated (callUpdates (dev w))) before -> call_news (callUpdates (dev w)) line n -> means (book_of (dev w)) n r ->
  handleNotification_with cl (before ++ line :: after) w = match r with Some r => handles_report_with cl r w | None => Done (Ok tt) w end.
Proof.
  intros Sd F N Me. unfold handleNotification_with. rewrite (unrelated_skip_with (before ++ line :: after) before (line :: after)) by auto. generalize (before ++ line :: after). intro lines. cbn [notify_each_with].
  destruct (contains line (lit "RING")) eqn:E1; [apply contains_iff in E1; destruct (news_no_ring _ _ _ N); auto|].
  destruct (news_not_stored _ _ _ N) as (-> & -> & ->).
  pose proof (news_with (callUpdates (dev w)) line) as S. unfold mbind, get. destruct (try_updates _ line) as [k|]; [|destruct (S _ N)].
  destruct S as (n' & N' & A). rewrite (news_fun _ _ _ _ N' N) in A. apply A; auto.
Qed.
End Told.
