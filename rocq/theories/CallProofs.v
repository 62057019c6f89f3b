(** Proofs about what notifications and methods do to the book of calls. *)
From Verif Require Import Base RegexModel RegexProofs UtilModel UtilSpec UtilProofs ModemCore ModemSpec WriteProofs MonadProofs SmsModel SendSpec SendProofs LangProofs CoverageSpec CoverageProofs ReadProofs QueryProofs
  ModemFinal TrackSpec TrackProofs CallModel NotifyModel PollModel PollSpec BookSpec BookProofs.

(** ** Reports *)
Lemma told_any n b w : exists tr, set_answered n b w = Done (Ok tt) (mk_world (set_callObjs (update (callObjs (dev w)) n (with_answered b)) (dev w)) (script w) (trace w ++ tr)) /\ status_of (book_of (dev w)) n tr.
Proof.
  unfold set_answered, change_call, mbind, modify, get, status_of. cbn [dev book_of b_calls]. destruct (nth_error (callObjs (dev w)) n) as [c|] eqn:H.
  - rewrite (the_call_nth _ n (with_answered b c)) by (cbn; rewrite update_nth, Nat.eqb_refl, H; auto). cbn [c_callback with_answered]. unfold status_told.
    destruct (c_callback c); [exists [EStatus n]|exists []]; split; auto. cbn. rewrite app_nil_r. auto.
  - exists []. split; auto. rewrite app_nil_r. unfold the_call. rewrite nth_overflow; [reflexivity|]. cbn. rewrite update_length. apply nth_error_None. auto.
Qed.
Lemma status_silent b n evs : status_of b n evs -> asked evs = [].
Proof. unfold status_of, status_told. destruct (nth_error _ n) as [c|]; [destruct (c_callback c)|]; intros ->; auto. Qed.
Lemma tells_silent b r evs : tells b r evs -> asked evs = [].
Proof. intro H. inversion H; subst; eauto using status_silent. Qed.
Lemma ends_call_run r id w : r = CallEnded (Some id) \/ r = Rejected (Some id) -> id <> 0 -> exists w' evs, (do m <- get;
        match zget (activeCalls m) id with
        | Some n =>
            set_answered n false ;;;
            change_call n (with_active false) ;;;
            modify (fun m => set_activeCalls (zdel (activeCalls m) id) m)
        | None => ret tt
        end) w = Done (Ok tt) w' /\ ends_call id (book_of (dev w)) (book_of (dev w')) /\ script w' = script w /\ trace w' = trace w ++ evs /\ tells (book_of (dev w)) r evs.
Proof.
  intros Hr N. unfold mbind at 1, get. destruct (zget (activeCalls (dev w)) id) as [n|] eqn:G.
  - destruct (told_any n false w) as (tr & R & St). unfold mbind at 1. rewrite R. eexists. exists tr. split; [reflexivity|]. cbn [dev script trace]. split; [|split; [auto|split; [auto|]]].
    + cbn [callObjs set_callObjs]. rewrite update_update. apply (ec_ended id (book_of (dev w)) n (update (callObjs (dev w)) n now_ended) (zdel (activeCalls (dev w)) id)) ; auto; [apply zget_in; auto|apply update_at|apply zdel_without].
    + eapply tl_ended; eauto. apply zget_in. auto.
  - exists w, []. rewrite app_nil_r. split; [reflexivity|]. split; [apply ec_unknown; right; apply zget_none; auto|]. repeat split; auto. eapply tl_ignored; eauto. right. apply zget_none. auto.
Qed.
Lemma ended_report r id fu w : r = CallEnded id \/ r = Rejected id -> exists w' evs, handleCallEnded None id fu w = Done (Ok tt) w' /\ match id with Some i => ends_call i (book_of (dev w)) (book_of (dev w')) | None => w' = w end /\
  script w' = script w /\ trace w' = trace w ++ evs /\ tells (book_of (dev w)) r evs.
Proof.
  intro Hr. unfold handleCallEnded, mbind at 1, ret at 1. cbn beta iota. destruct id as [id|].
  - destruct (Z.eqb_spec id 0) as [->|N].
    + exists w, []. rewrite app_nil_r. repeat split; auto; [apply ec_unknown; auto|]. eapply tl_ignored; eauto.
    + destruct (ends_call_run r id w Hr N) as (w' & evs & R & E & S & A). exists w', evs. auto.
  - exists w, []. rewrite app_nil_r. repeat split; auto. apply tl_none. auto.
Qed.
Lemma answered_run id w : exists x w' evs, answered_by_id id w = Done x w' /\ takes_report (book_of (dev w)) (Answered id) x (book_of (dev w')) /\ script w' = script w /\ trace w' = trace w ++ evs /\ tells (book_of (dev w)) (Answered id) evs.
Proof.
  unfold answered_by_id, mbind, get. destruct (zget (activeCalls (dev w)) id) as [n|] eqn:G.
  - destruct (told_any n true w) as (tr & E & At). rewrite E. do 2 eexists. exists tr. split; [reflexivity|]. cbn. split; [|split; [auto|split; [auto|]]].
    + apply (tk_answered (book_of (dev w)) id n); [apply zget_in; auto|]. apply update_at.
    + eapply tl_answered; eauto. apply zget_in. auto.
  - do 2 eexists. exists []. split; [reflexivity|]. rewrite app_nil_r. split; [apply tk_unknown; apply zget_none; auto|]. repeat split; auto. apply tl_unknown. apply zget_none. auto.
Qed.
Theorem report_run r w : exists x w' evs, handles_report r w = Done x w' /\ takes_report (book_of (dev w)) r x (book_of (dev w')) /\ script w' = script w /\ trace w' = trace w ++ evs /\ tells (book_of (dev w)) r evs.
Proof.
  destruct r; cbn [handles_report].
  - unfold handleCallInitiated, mbind at 1, get. destruct (dialEvent (dev w)) as [b|] eqn:E.
    + do 2 eexists. exists []. split; [reflexivity|]. split; [|repeat split; cbn; rewrite ?app_nil_r; auto; constructor]. apply (tk_initiated (book_of (dev w))). cbn. congruence.
    + do 2 eexists. exists []. split; [reflexivity|]. split; [|repeat split; cbn; rewrite ?app_nil_r; auto; constructor]. apply tk_nobody. auto.
  - apply answered_run.
  - destruct (ended_report (CallEnded id) id false w) as (w' & evs & R & E & H); auto. exists (Ok tt), w', evs. split; auto. split; auto. destruct id; [constructor; auto|subst; constructor].
  - destruct (ended_report (Rejected id) id true w) as (w' & evs & R & E & H); auto. exists (Ok tt), w', evs. split; auto. split; auto. destruct id; [constructor; auto|subst; constructor].
Qed.
Lemma report_asked r w : exists x w', handles_report r w = Done x w' /\ takes_report (book_of (dev w)) r x (book_of (dev w')) /\ script w' = script w /\ asked (trace w') = asked (trace w).
Proof. destruct (report_run r w) as (x & w' & evs & R & T & S & E & Te). exists x, w'. repeat split; auto. rewrite E, asked_app, (tells_silent _ _ _ Te), app_nil_r. auto. Qed.
Theorem modem_performing : performing book_of takes_report modem_handlers.
Proof.
  repeat split.
  - intros id ty w. apply (report_asked (Initiated id ty) w).
  - intros id w. apply (report_asked (Answered id) w).
  - intros id w. apply (report_asked (CallEnded id) w).
  - intros id w. apply (report_asked (Rejected id) w).
Qed.

(** ** Notifications *)
Definition acts (k : M unit) (n : news) : Prop := forall w, sound_book (book_of (dev w)) ->
  exists x w' evs, k w = Done x w' /\ takes_news (book_of (dev w)) n x (book_of (dev w')) /\ script w' = script w /\ trace w' = trace w ++ evs /\ tells_news (book_of (dev w)) n evs.
Lemma int_digit d g w : is_digit d = true -> int_of ([d] :: g) 0 w = Done (Ok (d - 48)) w.
Proof. intro H. unfold int_of, lift. cbn [nth_error]. rewrite py_int_digits by (split; [discriminate|auto]). reflexivity. Qed.
Lemma int_digits ds g w : digits ds -> int_of (ds :: g) 0 w = Done (Ok (dec_value ds)) w.
Proof. intro H. unfold int_of, lift. cbn [nth_error]. rewrite py_int_digits by auto. reflexivity. Qed.
Lemma acts_report k r : (forall w, k w = handles_report r w) -> acts k (News r).
Proof.
  intros E w _. destruct (report_run r w) as (x & w' & evs & R & T & S & Tr & H). exists x, w', evs. rewrite E. split; auto. split; [constructor; auto|]. repeat split; auto. constructor. auto.
Qed.
Lemma acts_initiated d t g : is_digit d = true -> is_digit t = true -> acts (handleCallInitiated (Some ([d] :: [t] :: g)) 0 1) (News (Initiated (d - 48) (t - 48))).
Proof.
  intros D T. apply acts_report. intro w. cbn [handles_report]. unfold handleCallInitiated, mbind, get. destruct (dialEvent (dev w)); auto.
  rewrite int_digit by auto. unfold int_of, lift. cbn [nth_error]. rewrite py_int_digits by (split; [discriminate|auto]). reflexivity.
Qed.
Lemma acts_initiated1 d : is_digit d = true -> acts (handleCallInitiated (Some [[d]]) 0 1) (News (Initiated (d - 48) 1)).
Proof.
  intros D. apply acts_report. intro w. cbn [handles_report]. unfold handleCallInitiated, mbind, get. destruct (dialEvent (dev w)); auto.
  rewrite int_digit by auto. reflexivity.
Qed.
Lemma acts_answered d t g : is_digit d = true -> acts (handleCallAnswered (Some ([d] :: t :: g)) 0) (News (Answered (d - 48))).
Proof. intros D. apply acts_report. intro w. cbn [handles_report handleCallAnswered]. unfold mbind. rewrite int_digit by auto. reflexivity. Qed.
Lemma acts_ended ds g : digits ds -> acts (handleCallEnded (Some (ds :: g)) None false) (News (CallEnded (Some (dec_value ds)))).
Proof. intros D. apply acts_report. intro w. cbn [handles_report]. unfold handleCallEnded, mbind at 1. unfold mbind at 1. rewrite int_digits by auto. reflexivity. Qed.
(** *** without an id *)
Definition waits (c : call) : bool := negb (c_answered c) && negb (c_incoming c).
Lemma find_first m : sound_book (book_of m) -> match find (fun e => waits (the_call m (snd e))) (activeCalls m) with
  | Some (id, n) => first_unanswered (book_of m) (Some (id, n)) /\ zget (activeCalls m) id = Some n /\ c_id (the_call m n) = id
  | None => first_unanswered (book_of m) None
  end.
Proof.
  intros [Nd Sd]. cbn [book_of b_table] in Sd.
  assert (W : forall e, In e (activeCalls m) -> waits (the_call m (snd e)) = true <-> outgoing_unanswered (book_of m) (snd e)).
  { intros [id n] I. destruct (Sd _ _ I) as (c & Hc & _ & _). unfold outgoing_unanswered. cbn [snd b_calls book_of] in *. rewrite (the_call_nth _ _ _ Hc). unfold waits. rewrite andb_true_iff, !negb_true_iff. split.
    - intros [A B]. exists c. auto.
    - intros (c' & Hc' & A & B). assert (c' = c) by congruence. subst. auto. }
  unfold ids in Nd. cbn [book_of b_table] in Nd.
  assert (F : forall t1 t2, activeCalls m = t1 ++ t2 -> Forall (fun e => ~ outgoing_unanswered (book_of m) (snd e)) t1 ->
     match find (fun e => waits (the_call m (snd e))) t2 with Some (id, n) => first_unanswered (book_of m) (Some (id, n)) /\ In (id, n) (activeCalls m) | None => first_unanswered (book_of m) None end).
  { intros t1 t2. revert t1. induction t2 as [|[id n] t2 IH]; intros t1 E Fa; cbn [find].
    - apply fu_none. cbn. rewrite E, app_nil_r. auto.
    - cbn [snd]. destruct (waits (the_call m n)) eqn:Wt.
      + assert (I : In (id, n) (activeCalls m)) by (rewrite E; apply in_or_app; right; left; auto). split; auto. apply (fu_some _ t1 id n t2); auto. apply (W (id, n)); auto.
      + apply (IH (t1 ++ [(id, n)])); [rewrite <- app_assoc; auto|]. apply Forall_app. split; auto. constructor; auto.
        intro X. apply (W (id, n)) in X; [cbn in X; congruence|]. rewrite E. apply in_or_app. right. left. auto. }
  specialize (F [] (activeCalls m) eq_refl (Forall_nil _)). destruct (find _ (activeCalls m)) as [[id n]|]; auto. destruct F as [F I]. split; auto.
  destruct (Sd _ _ I) as (c & Hc & Ic & _). split; [|rewrite (the_call_nth _ _ _ Hc); auto].
  clear - Nd I. induction (activeCalls m) as [|[j k] t IH]; [contradiction I|]. cbn in *. inversion Nd as [|? ? D1 D2]; subst. destruct I as [I|I].
  - injection I as -> ->. rewrite Z.eqb_refl. auto.
  - destruct (Z.eqb_spec j id) as [->|N]; auto. exfalso. apply D1. apply (in_map fst) in I. auto.
Qed.
Lemma acts_some_answered : acts (handleCallAnswered (Some []) 0) SomeAnswered.
Proof.
  intros w Sd. cbn [handleCallAnswered]. unfold mbind, get, find_call. pose proof (find_first _ Sd) as F. unfold waits in F.
  destruct (find _ (activeCalls (dev w))) as [[id n]|]; cbn [option_map snd].
  - destruct F as (F & G & _). destruct (answered_run id w) as (x & w' & evs & R & T & S & Tr & H). unfold answered_by_id, mbind, get in R. rewrite G in R. exists x, w', evs. split; auto. split; [eapply tn_answered; eauto|]. repeat split; auto. eapply tw_answered; eauto.
  - do 2 eexists. exists []. split; [reflexivity|]. rewrite app_nil_r. split; [apply tn_none; auto|]. repeat split; auto. apply tw_none; auto.
Qed.
Lemma find_ext {A} (p q : A -> bool) l : (forall x, p x = q x) -> find p l = find q l.
Proof. intro H. induction l as [|x l IH]; cbn; auto. rewrite H, IH. auto. Qed.
Lemma acts_some_rejected : acts (handleCallRejected (Some []) None) SomeRejected.
Proof.
  intros w Sd. unfold handleCallRejected, handleCallEnded, mbind at 1. unfold mbind at 1, get at 1, find_call. cbn beta iota. pose proof (find_first _ Sd) as F.
  rewrite (find_ext _ (fun e => waits (the_call (dev w) (snd e)))) by (intro e; unfold waits; cbn; apply andb_comm).
  destruct (find _ (activeCalls (dev w))) as [[id n]|]; cbn [option_map snd].
  - destruct F as (F & G & I). cbn [ret]. rewrite I. destruct (ended_report (CallEnded (Some id)) (Some id) true w) as (w' & evs & R & E & S & Tr & H); auto. unfold handleCallEnded, mbind at 1, ret at 1 in R. exists (Ok tt), w', evs. split; [exact R|]. split.
    + eapply tn_rejected; eauto. constructor. auto.
    + repeat split; auto. eapply tw_rejected; eauto.
  - do 2 eexists. exists []. split; [reflexivity|]. rewrite app_nil_r. split; [apply tn_none; auto|]. repeat split; auto. apply tw_none; auto.
Qed.
Lemma seq_gpp p r t g rest : lang (RGrpPlus p ;; r) t g rest <-> exists a c t' g', t = (a ++ [c]) ++ t' /\ g = [c] :: g' /\ Forall (fun c => p c = true) (a ++ [c]) /\ lang r t' g' rest.
Proof.
  cbn. split.
  - intros (t1 & t2 & g1 & g2 & -> & -> & (F & a & c & -> & ->) & H). exists a, c, t2, g2. auto.
  - intros (a & c & t' & g' & -> & -> & F & H). exists (a ++ [c]), t', [[c]], g'. repeat split; eauto.
Qed.
Lemma lit_end l t g rest : lang (RLit l ;; REol) t g rest -> t = l /\ g = [] /\ line_end rest.
Proof. intro H. apply seq_lit in H as (t' & -> & H). apply end_eol in H as (-> & -> & H). rewrite app_nil_r. auto. Qed.
Ltac pc := apply seq_gcls; do 3 eexists; split; [reflexivity|]; split; [reflexivity|]; split; [assumption|].
Ltac pl := apply seq_lit; eexists; split; [reflexivity|].
Ltac pend := try rewrite app_nil_r; apply end_eol; auto.
Ltac next_re line R := match goal with |- match (match re_match ?r line with _ => _ end) with _ => _ end => destruct (re_match r line) as [[[t g] rest]|] eqn:R end.
Theorem news_spec t line : match try_updates (call_updates t) line with
  | Some k => exists n, call_news t line n /\ acts k n
  | None => forall n, ~ call_news t line n
  end.
Proof.
  destruct t; cbn [call_updates try_updates].
  - intros n H. inversion H.
  - next_re line R1; [|next_re line R2; [|next_re line R3]].
    + apply re_match_some in R1 as [-> L]. lang_inv L. exists (News (Initiated (c - 48) (c0 - 48))). split; [|apply acts_initiated; auto].
      appn. apply (cn_orig c c0 rest); auto.
    + apply re_match_some in R2 as [-> L]. lang_inv L. exists (News (Answered (c - 48))). split; [|apply acts_answered; auto].
      appn. apply (cn_conn c c0 rest); auto.
    + apply re_match_some in R3 as [-> L]. apply seq_lit in L as (t1 & -> & L). apply seq_gcls in L as (d & t2 & g2 & -> & -> & D & L). apply seq_lit in L as (t3 & -> & L).
      apply seq_gcls in L as (d2 & t4 & g4 & -> & -> & D2 & L). apply seq_lit in L as (t5 & -> & L). apply seq_gpp in L as (a & c & t6 & g6 & -> & -> & Fa & L). apply seq_lit in L as (t7 & -> & L).
      apply seq_gpp in L as (b & e & t8 & g8 & -> & -> & Fb & L). apply end_eol in L as (-> & -> & L). exists (News (CallEnded (Some (d - 48)))). split.
      * replace ((lit "^CEND:" ++ d :: lit "," ++ d2 :: lit "," ++ (a ++ [c]) ++ lit "," ++ (b ++ [e]) ++ []) ++ rest) with (lit "^CEND:" ++ [d; 44; d2; 44] ++ (a ++ [c]) ++ [44] ++ (b ++ [e]) ++ rest).
        -- apply cn_cend; auto; split; auto; intro X; symmetry in X; apply app_cons_not_nil in X; auto.
        -- rewrite app_nil_r. appn. reflexivity.
      * apply (acts_ended [d]). split; [discriminate|auto].
    + intros n H. inversion H as [d t nl D T E|d t nl D T E|d t ds ds2 nl D T [N1 D1] [N2 D2] E| | | | | |]; subst.
      * eapply (proj1 (re_match_none _ _) R1 (lit "^ORIG:" ++ [d; 44; t]) [[d]; [t]] nl); [appn; auto|]. pl. pc. pl. pc. pend.
      * eapply (proj1 (re_match_none _ _) R2 (lit "^CONN:" ++ [d; 44; t]) [[d]; [t]] nl); [appn; auto|]. pl. pc. pl. pc. pend.
      * destruct (exists_last N1) as (a & c & ->). destruct (exists_last N2) as (b & e & ->).
        eapply (proj1 (re_match_none _ _) R3 (lit "^CEND:" ++ [d; 44; t; 44] ++ (a ++ [c]) ++ [44] ++ (b ++ [e])) [[d]; [t]; [c]; [e]] nl); [appn; auto|]. pl. pc. pl. pc. pl.
        apply seq_gpp. do 4 eexists. split; [reflexivity|]. split; [reflexivity|]. split; [assumption|]. pl. apply seq_gpp. exists b, e, [], []. rewrite app_nil_r. split; [reflexivity|]. split; [reflexivity|]. split; [assumption|]. pend.
  - next_re line R1; [|next_re line R2; [|next_re line R3]].
    + apply re_match_some in R1 as [-> L]. lang_inv L. exists (News (Initiated (c - 48) 1)). split; [|apply acts_initiated1; auto].
      appn. apply (cn_wind5 c rest); auto.
    + apply re_match_some in R2 as [-> L]. apply lit_end in L as (-> & -> & L). exists SomeAnswered. split; [apply cn_ok; auto|apply acts_some_answered].
    + apply re_match_some in R3 as [-> L]. lang_inv L. exists (News (CallEnded (Some (c - 48)))). split; [|apply (acts_ended [c]); split; [discriminate|auto]].
      appn. apply (cn_wind6 c rest); auto.
    + intros n H. inversion H as [| | |d nl D E|nl E|d nl D E| | |]; subst.
      * eapply (proj1 (re_match_none _ _) R1 (lit "+WIND: 5," ++ [d]) [[d]] nl); [appn; auto|]. pl. pc. pend.
      * eapply (proj1 (re_match_none _ _) R2 (lit "OK") [] nl); [appn; auto|]. pl. pend.
      * eapply (proj1 (re_match_none _ _) R3 (lit "+WIND: 6," ++ [d]) [[d]] nl); [appn; auto|]. pl. pc. pend.
  - next_re line R1; [|next_re line R2; [|next_re line R3]].
    + apply re_match_some in R1 as [-> L]. apply lit_end in L as (-> & -> & L). exists SomeAnswered. split; [apply cn_connect; auto|apply acts_some_answered].
    + apply re_match_some in R2 as [-> L]. lang_inv L. exists (News (CallEnded (Some (dec_value a0)))). split; [|apply acts_ended; split; auto].
      replace ((lit "HANGUP:" ++ a ++ a0 ++ []) ++ rest) with (lit "HANGUP:" ++ a ++ a0 ++ rest) by (rewrite app_nil_r; appn; auto). apply cn_hangup; auto. split; auto.
    + apply re_match_some in R3 as [-> L]. apply lit_end in L as (-> & -> & L). exists SomeRejected. split; [apply cn_zte_ok; auto|apply acts_some_rejected].
    + intros n H. inversion H as [| | | | | |nl E|sp ds nl B [N D] E|nl E]; subst.
      * eapply (proj1 (re_match_none _ _) R1 (lit "CONNECT") [] nl); [appn; auto|]. pl. pend.
      * eapply (proj1 (re_match_none _ _) R2 (lit "HANGUP:" ++ sp ++ ds) [ds] nl); [appn; auto|]. pl. apply seq_star. do 2 eexists. split; [reflexivity|]. split; [assumption|].
        apply seq_gplus. exists ds, [], []. rewrite app_nil_r. split; [reflexivity|]. split; [reflexivity|]. split; auto. split; auto. pend.
      * eapply (proj1 (re_match_none _ _) R3 (lit "OK") [] nl); [appn; auto|]. pl. pend.
Qed.

(** *** which handler a line goes to *)
Lemma no_ring_in line : ~ In 82 line \/ ~ In 78 line -> ~ ModemSpec.substring (lit "RING") line.
Proof. intros H (a & b & ->). destruct H as [H|H]; apply H; apply in_or_app; right; apply in_or_app; left; cbn; tauto. Qed.
Lemma digits_nin c ds : digits ds -> is_digit c = false -> ~ In c ds.
Proof. intros [_ D] H I. rewrite Forall_forall in D. specialize (D _ I). congruence. Qed.
Lemma eol_nin c nl : line_end nl -> c <> 10 -> ~ In c nl.
Proof. intros [->| ->] N; cbn; [tauto|]. intros [X|[]]. congruence. Qed.
Lemma blank_nin c sp : blank sp -> is_space c = false -> ~ In c sp.
Proof. intros D H I. unfold blank in D. rewrite Forall_forall in D. specialize (D _ I). congruence. Qed.
Lemma digit_ne c d : digit d -> is_digit c = false -> d <> c.
Proof. intros D H ->. unfold digit in D. congruence. Qed.
Ltac nin := repeat (rewrite !in_app_iff || cbn [In lit]); intuition (try discriminate);
  match goal with
  | H : In _ ?l, D : digits ?l |- _ => revert H; apply digits_nin; [assumption|reflexivity]
  | H : In _ ?l, D : line_end ?l |- _ => revert H; apply eol_nin; [assumption|discriminate]
  | H : In _ ?l, D : blank ?l |- _ => revert H; apply blank_nin; [assumption|reflexivity]
  | H : ?d = _, D : digit ?d |- _ => revert H; apply digit_ne; [assumption|reflexivity]
  | _ => idtac
  end.
Lemma news_no_ring t line n : call_news t line n -> ~ ModemSpec.substring (lit "RING") line.
Proof.
  intro H. apply no_ring_in. inversion H; subst; solve [left; vm_compute lit; nin|right; vm_compute lit; nin].
Qed.
Lemma news_not_stored t line n : call_news t line n -> startswith line (lit "+CMTI") = false /\ startswith line (lit "+CUSD") = false /\ startswith line (lit "+CDSI") = false.
Proof. intro H. inversion H; subst; repeat split; reflexivity. Qed.
Lemma hangup_fun sp ds nl sp' ds' nl' : blank sp -> digits ds -> line_end nl -> blank sp' -> digits ds' -> line_end nl' ->
  sp ++ ds ++ nl = sp' ++ ds' ++ nl' -> ds = ds'.
Proof.
  assert (O : forall ds nl, digits ds -> starts_outside is_space (ds ++ nl)).
  { intros [|c l] z [N D]; [congruence|]. cbn. inversion D; subst. apply digit_not_space. auto. }
  assert (E : forall nl, line_end nl -> starts_outside is_digit nl) by (intros z [->| ->]; cbn; auto).
  intros B D L B' D' L' H. apply (span_unique is_space) in H as [_ H]; auto. destruct D as [_ D], D' as [_ D']. apply (span_unique is_digit) in H as [H _]; auto.
Qed.
Lemma news_fun t line n1 n2 : call_news t line n1 -> call_news t line n2 -> n1 = n2.
Proof.
  intros H1 H2. inversion H1; subst; inversion H2; subst; try discriminate; try reflexivity;
  repeat match goal with H : _ ++ _ = _ ++ _ |- _ => progress (vm_compute lit in H); cbn [app] in H end;
  try match goal with H : _ :: _ = _ :: _ |- _ => inversion H; subst; reflexivity end.
  match goal with H : ?x = ?y |- _ => cbn in H; inversion H as [H'] end. do 3 f_equal. symmetry. f_equal. eapply hangup_fun; [..|eassumption]; auto.
Qed.
