(** Listing stored messages. *)
From Verif Require Import Base RegexModel RegexProofs DateModel UtilModel UtilProofs TrieProofs PduModel DeliverSpec DecodeTotal ModemCore ModemSpec WriteProofs MonadProofs SmsModel SendSpec SendProofs TrackSpec LangProofs CoverageSpec CoverageProofs QueryProofs StoreSpec ReadProofs StoreProofs ListSpec.

(** ** Headers *)
Lemma blank_digits (sp sp' ds ds' x y : str) : blank sp -> blank sp' -> digits ds -> digits ds' -> sp ++ ds ++ x = sp' ++ ds' ++ y -> sp = sp' /\ ds ++ x = ds' ++ y.
Proof.
  intros B B' [N F] [N' F'] E. apply (span_unique is_space) in E as [-> E]; auto.
  - destruct ds as [|c ds]; [congruence|]. cbn. inversion F; subst. apply digit_nonspace. auto.
  - destruct ds' as [|c ds']; [congruence|]. cbn. inversion F'; subst. apply digit_nonspace. auto.
Qed.
Lemma cmgl_match line i st : cmgl_header line i st -> exists m is ss, re_match CMGL_PDU line = Some m /\ group 1 m = is /\ group 2 m = ss /\
  digits is /\ digits ss /\ i = dec_value is /\ st = dec_value ss.
Proof.
  intros (sp1 & is & sp2 & ss & more & nl & -> & B1 & [Ni Fi] & -> & B2 & [Ns Fs] & -> & Nl & E).
  destruct (re_match CMGL_PDU (lit "+CMGL:" ++ sp1 ++ is ++ 44 :: sp2 ++ ss ++ 44 :: more ++ nl)) as [[[t g] rest]|] eqn:M.
  - exists (t, g, rest), is, ss. split; auto. apply re_match_some in M as [Es La]. unfold CMGL_PDU in La. lang_inv La.
    unfold group. cbn [groups fst snd nth Nat.sub]. appn_in Es. apply app_inv_head in Es.
    assert (digits is) by (split; auto). assert (digits ss) by (split; auto). assert (digits a0) by (split; auto). assert (digits a2) by (split; auto).
    apply blank_digits in Es as [-> Es]; auto. apply (nodigit 44) in Es as [-> Es]; auto. apply blank_digits in Es as [-> Es]; auto.
    apply (nodigit 44) in Es as [-> Es]; auto 8.
  - exfalso. rewrite re_match_none in M. apply (M (lit "+CMGL:" ++ sp1 ++ is ++ 44 :: sp2 ++ ss ++ 44 :: more) [is; ss] nl); [appn; auto|].
    unfold CMGL_PDU. apply seq_lit. eexists. split; [reflexivity|]. apply seq_star. do 2 eexists. split; [reflexivity|]. split; [exact B1|].
    apply seq_gplus. do 3 eexists. split; [reflexivity|]. split; [reflexivity|]. split; [auto|]. split; [exact Fi|].
    apply seq_lit. eexists. split; [reflexivity|]. apply seq_star. do 2 eexists. split; [reflexivity|]. split; [exact B2|].
    apply seq_gplus. do 3 eexists. split; [reflexivity|]. split; [reflexivity|]. split; [auto|]. split; [exact Fs|].
    apply seq_lit. exists more. split; [reflexivity|]. apply seq_star. exists more, []. rewrite app_nil_r. split; auto. split; [|apply end_eol; auto].
    apply Forall_forall. intros c I. unfold c_any. apply negb_true_iff, Z.eqb_neq. intros ->. tauto.
Qed.
Lemma cmgl_match_inv line m : re_match CMGL_PDU line = Some m -> exists is ss, group 1 m = is /\ group 2 m = ss /\ digits is /\ digits ss /\
  cmgl_header line (dec_value is) (dec_value ss).
Proof.
  destruct m as [[t g] rest]. intro M. apply re_match_some in M as [-> L]. unfold CMGL_PDU in L. lang_inv L. unfold group. cbn [groups fst snd nth Nat.sub].
  exists a0, a2. repeat split; auto. exists a, a0, a1, a2, a3, rest. split; [appn; rewrite ?app_nil_r; auto|]. split; auto. split; [split; auto|]. split; auto. split; auto.
  split; [split; auto|]. split; auto. split; auto. intro I. rewrite Forall_forall in F3. apply F3 in I. discriminate.
Qed.
Lemma cmgl_nomatch line : no_cmgl_header line <-> re_match CMGL_PDU line = None.
Proof.
  split.
  - intro N. destruct (re_match CMGL_PDU line) as [m|] eqn:M; auto. apply cmgl_match_inv in M as (is & ss & _ & _ & _ & _ & H). apply N in H. tauto.
  - intros M i st H. apply cmgl_match in H as (m & is & ss & E & _). congruence.
Qed.
Lemma header_undecodable line i st : cmgl_header line i st -> undecodable line.
Proof.
  intros (sp1 & is & sp2 & ss & more & nl & -> & _). unfold undecodable. apply decode_total. intros [_ F]. assert (H : hex_digit 43) by (apply Forall_inv in F; exact F). unfold hex_digit in H. lia.
Qed.

(** ** PDU mode *)
Definition ext (l : listing) (es : list (Z * stored_sms)) : listing := (fst l ++ map snd es, fold_left add_del (map fst es) (snd l)).
Lemma ext_nil l : ext l [] = l.
Proof. unfold ext. cbn. rewrite app_nil_r. destruct l; auto. Qed.
Lemma ext_cons l i s es : ext (fst l ++ [s], add_del (snd l) i) es = ext l ((i, s) :: es).
Proof. unfold ext. cbn. rewrite <- app_assoc. auto. Qed.
Lemma sms_of_pdu_iff stat d s : sms_of_pdu stat d = Ok s <-> message_of stat d s.
Proof.
  unfold sms_of_pdu. split.
  - destruct (sms_type d) eqn:T; intro H; try discriminate; injection H as <-; [eapply mo_deliver; eauto|eapply mo_report; eauto].
  - intros [? ? ? ? ? T|? ? ? ? ? T]; rewrite T; auto.
Qed.
Lemma list_pdu_taken lines : forall l r,
  (list_pdu lines None l = Ok r -> exists es, taken_pdu lines es /\ r = ext l es) /\
  (forall i st, list_pdu lines (Some (i, st)) l = Ok r ->
     (Forall undecodable lines /\ r = l) \/
     (exists junk pdu d s lines' es, lines = junk ++ pdu :: lines' /\ Forall undecodable junk /\ decodeSmsPdu pdu = Ok d /\ message_of st d s /\
        taken_pdu lines' es /\ r = ext l ((i, s) :: es))).
Proof.
  induction lines as [|line lines IH]; intros l r; split.
  - intros [= <-]. exists []. rewrite ext_nil. split; auto. constructor.
  - intros i st [= <-]. left. auto.
  - cbn [list_pdu]. destruct (re_match CMGL_PDU line) as [m|] eqn:M.
    + apply cmgl_match_inv in M as (is & ss & G1 & G2 & Di & Ds & Hd). rewrite G1, G2, (py_int_digits _ Di), (py_int_digits _ Ds). cbn [bind].
      intro H. apply IH in H as [(F & ->)|(junk & pdu & d & s & lines' & es & -> & F & D & Ms & T & ->)].
      * exists []. rewrite ext_nil. split; auto. eapply tp_cut; eauto.
      * exists ((dec_value is, s) :: es). split; auto. eapply tp_entry; eauto.
    + intro H. apply IH in H as (es & T & ->). exists es. split; auto. apply tp_other; auto. apply cmgl_nomatch. auto.
  - intros i st. cbn [list_pdu]. destruct (decodeSmsPdu line) as [d|e] eqn:D.
    + destruct (sms_of_pdu st d) as [s|] eqn:S; [|discriminate]. cbn [bind]. intro H. apply IH in H as (es & T & ->). right.
      exists [], line, d, s, lines, es. rewrite ext_cons. apply sms_of_pdu_iff in S. auto 8.
    + destruct e; try discriminate. intro H. apply IH in H as [(F & ->)|(junk & pdu & d & s & lines' & es & -> & F & D' & Ms & T & ->)].
      * left. auto.
      * right. exists (line :: junk), pdu, d, s, lines', es. split; auto.
Qed.
Lemma skip_junk junk : Forall undecodable junk -> forall lines i st l, list_pdu (junk ++ lines) (Some (i, st)) l = list_pdu lines (Some (i, st)) l.
Proof. induction 1 as [|x junk U F IH]; intros; auto. cbn [app list_pdu]. rewrite U. auto. Qed.
Lemma taken_pdu_list lines es : taken_pdu lines es -> forall l, list_pdu lines None l = Ok (ext l es).
Proof.
  assert (Hh : forall head i st lines l, cmgl_header head i st -> list_pdu (head :: lines) None l = list_pdu lines (Some (i, st)) l).
  { intros head i st ls l H. apply cmgl_match in H as (m & is & ss & E & G1 & G2 & Di & Ds & -> & ->). cbn [list_pdu].
    rewrite E, G1, G2, (py_int_digits _ Di), (py_int_digits _ Ds). auto. }
  induction 1 as [|line lines es N T IH|head i st junk pdu d s lines es H F D Ms T IH|head i st junk H F]; intro l.
  - rewrite ext_nil. auto.
  - cbn [list_pdu]. apply cmgl_nomatch in N. rewrite N. auto.
  - rewrite (Hh _ i st) by auto. rewrite skip_junk by auto. cbn [list_pdu]. rewrite D. apply sms_of_pdu_iff in Ms. rewrite Ms. cbn [bind]. rewrite IH, ext_cons. auto.
  - rewrite (Hh _ i st), ext_nil by auto. rewrite <- (app_nil_r junk), skip_junk by auto. auto.
Qed.
Lemma well_formed_taken lines es : well_formed lines es -> taken_pdu lines es.
Proof. induction 1; [constructor|constructor; auto|]. apply (tp_entry _ i stat [] pdu d); auto. Qed.

(** ** Text mode *)
Lemma cmgl_text_match line i st nb t : cmgl_text line i st nb t -> exists is x rest, re_match CMGL_TEXT line = Some (x, [is; st; nb; t], rest) /\ digits is /\ i = dec_value is.
Proof.
  intros (is & alpha & nl & -> & [Ni Fi] & -> & Ns & S & Nn & N & A & Nt & T & E).
  exists is, (lit "+CMGL: " ++ is ++ [44; 34] ++ st ++ [34; 44; 34] ++ nb ++ [34; 44] ++ alpha ++ [44; 34] ++ t ++ [34]), nl. split; [|split; [split; auto|auto]].
  apply re_match_unique.
  - appn. auto.
  - unfold CMGL_TEXT. apply seq_lit. eexists. split; [reflexivity|].
    apply seq_gplus. do 3 eexists. split; [reflexivity|]. split; [reflexivity|]. split; [auto|]. split; [auto|].
    apply seq_lit. exists (st ++ [34; 44; 34] ++ nb ++ [34; 44] ++ alpha ++ [44; 34] ++ t ++ [34]). split; [reflexivity|].
    apply seq_gplus. do 3 eexists. split; [reflexivity|]. split; [reflexivity|]. split; [auto|]. split; [apply c_not_not_in; auto|].
    apply seq_lit. exists (nb ++ [34; 44] ++ alpha ++ [44; 34] ++ t ++ [34]). split; [reflexivity|].
    apply seq_gplus. do 3 eexists. split; [reflexivity|]. split; [reflexivity|]. split; [auto|]. split; [apply c_not_not_in; auto|].
    apply seq_lit. exists (alpha ++ [44; 34] ++ t ++ [34]). split; [reflexivity|].
    apply seq_star. do 2 eexists. split; [reflexivity|]. split; [apply c_not_not_in; auto|].
    apply seq_lit. exists (t ++ [34]). split; [reflexivity|].
    apply seq_gplus. do 3 eexists. split; [reflexivity|]. split; [reflexivity|]. split; [auto|]. split; [apply c_not_not_in; auto|].
    apply seq_lit. exists []. split; auto. apply end_eol. auto.
  - intros t' g' rest' Es L. unfold CMGL_TEXT in L. lang_inv L. apply c_not_not_in in F0, F1, F2, F3. appn_in Es. apply app_inv_head in Es.
    apply (nodigit 44) in Es as [-> Es]; auto. injection Es as Es. apply (noquote 34) in Es as [-> Es]; auto. injection Es as Es.
    apply (noquote 34) in Es as [-> Es]; auto. injection Es as Es. apply (noquote 44) in Es as [-> Es]; auto. injection Es as Es. apply (noquote 34) in Es as [-> ->]; auto.
Qed.
Lemma cmgl_text_inv line m : re_match CMGL_TEXT line = Some m -> exists is st nb t, groups m = [is; st; nb; t] /\ digits is /\ cmgl_text line (dec_value is) st nb t.
Proof.
  destruct m as [[x g] rest]. intro M. apply re_match_some in M as [-> L]. unfold CMGL_TEXT in L. lang_inv L. apply c_not_not_in in F0, F1, F2, F3.
  exists a, a0, a1, a3. split; auto. split; [split; auto|]. exists a, a2, rest. split; [appn; rewrite ?app_nil_r; auto|]. split; [split; auto|]. auto 12.
Qed.
Lemma cmgl_text_nomatch line : no_cmgl_text line <-> re_match CMGL_TEXT line = None.
Proof.
  split.
  - intro N. destruct (re_match CMGL_TEXT line) as [m|] eqn:M; auto. apply cmgl_text_inv in M as (is & st & nb & t & _ & _ & H). apply N in H. tauto.
  - intros M i st nb t H. apply cmgl_text_match in H as (is & x & rest & E & _). congruence.
Qed.
Lemma text_status_iff s n : text_status s = Ok n <-> status_named s n.
Proof.
  split; [|apply status_named_eq]. unfold text_status. destruct (find _ _) as [p|] eqn:F; [|discriminate]. intros [= <-].
  apply find_some in F as [I E]. destruct (str_eqb_spec (fst p) s) as [<-|]; [|discriminate]. destruct p. exact I.
Qed.

(** what finishing an entry gives *)
Definition entry_of (cur : option way) (ml : list str) (es : list (Z * stored_sms)) : Prop :=
  match cur, ml with
  | Some m, _ :: _ => exists is st nb t n tm, groups m = [is; st; nb; t] /\ digits is /\ status_named st n /\ parseTextModeTimeStr t = Ok tm /\
      es = [(dec_value is, Received n (Some nb) tm (text_of ml) None)]
  | _, _ => es = []
  end.
Definition head_of (cur : option way) : Prop := forall m, cur = Some m -> exists is st nb t, groups m = [is; st; nb; t] /\ digits is.
Lemma save_text_iff cur ml l r : head_of cur -> save_text cur ml l = Ok r <-> exists es, entry_of cur ml es /\ r = ext l es.
Proof.
  intro Hc. unfold save_text, entry_of. destruct cur as [m|]; [destruct ml as [|x ml]|].
  - split; [intros [= <-]; exists []; rewrite ext_nil; auto|intros (es & -> & ->); rewrite ext_nil; auto].
  - destruct (Hc m eq_refl) as (is & st & nb & t & G & Di). unfold group. rewrite G. cbn [nth Nat.sub]. split.
    + intro H. destruct (text_status st) as [n|] eqn:S; [|discriminate]. cbn [bind] in H. destruct (parseTextModeTimeStr t) as [tm|] eqn:T; [|discriminate]. cbn [bind] in H.
      rewrite (py_int_digits _ Di) in H. cbn [bind] in H. injection H as <-. apply text_status_iff in S.
      exists [(dec_value is, Received n (Some nb) tm (text_of (x :: ml)) None)]. split; [exists is, st, nb, t, n, tm; auto 8|]. rewrite join_text. reflexivity.
    + intros (es & (is' & st' & nb' & t' & n & tm & G' & _ & S & T & ->) & ->). injection G' as <- <- <- <-. apply text_status_iff in S. rewrite S. cbn [bind]. rewrite T. cbn [bind].
      rewrite (py_int_digits _ Di). cbn [bind]. rewrite join_text. reflexivity.
  - split; [intros [= <-]; exists []; rewrite ext_nil; auto|intros (es & -> & ->); rewrite ext_nil; auto].
Qed.
(** the lines up to the next header *)
Lemma list_text_body body : Forall no_cmgl_text body -> forall lines cur ml l, list_text (body ++ lines) cur ml l = list_text lines cur (ml ++ kept body) l.
Proof.
  induction 1 as [|x body N F IH]; intros lines cur ml l; [cbn; rewrite app_nil_r; auto|]. cbn [app list_text]. apply cmgl_text_nomatch in N. rewrite N, IH.
  unfold kept. cbn [filter]. destruct (negb (str_eqb x (lit "OK"))); [rewrite <- app_assoc; auto|auto].
Qed.
Lemma split_body lines : exists body rest, lines = body ++ rest /\ Forall no_cmgl_text body /\ header_next rest.
Proof.
  induction lines as [|x lines (body & rest & -> & F & H)]; [exists [], []; repeat split; auto; constructor|].
  destruct (re_match CMGL_TEXT x) as [m|] eqn:M.
  - exists [], (x :: body ++ rest). repeat split; auto. apply cmgl_text_inv in M as (is & st & nb & t & _ & _ & X). econstructor; eauto.
  - exists (x :: body), rest. repeat split; auto. constructor; auto. apply cmgl_text_nomatch. auto.
Qed.
Lemma list_text_head line is st nb t x rest lines cur ml l : re_match CMGL_TEXT line = Some (x, [is; st; nb; t], rest) ->
  list_text (line :: lines) cur ml l = let* l' := save_text cur ml l in list_text lines (Some (x, [is; st; nb; t], rest)) [] l'.
Proof. intro E. cbn [list_text]. rewrite E. auto. Qed.
Lemma text_of_cur is st nb t x rest ml es : digits is -> entry_of (Some (x, [is; st; nb; t], rest)) ml es ->
  (ml = [] /\ es = []) \/ (ml <> [] /\ exists n tm, status_named st n /\ parseTextModeTimeStr t = Ok tm /\ es = [(dec_value is, Received n (Some nb) tm (text_of ml) None)]).
Proof.
  intros Di H. destruct ml as [|y ml]; cbn [entry_of] in H; [auto|right]. split; [discriminate|]. destruct H as (is' & st' & nb' & t' & n & tm & G & _ & S & T & ->).
  injection G as <- <- <- <-. eauto.
Qed.
Lemma list_text_taken n : forall lines, (length lines <= n)%nat -> forall is st nb t x rest l r, digits is ->
  list_text lines (Some (x, [is; st; nb; t], rest)) [] l = Ok r -> exists body lines' e es, lines = body ++ lines' /\ Forall no_cmgl_text body /\ header_next lines' /\
    entry_of (Some (x, [is; st; nb; t], rest)) (kept body) e /\ taken_text lines' es /\ r = ext l (e ++ es).
Proof.
  induction n as [n IH] using lt_wf_ind. intros lines Hl is st nb t x rest l r Di H.
  assert (Hh : head_of (Some (x, [is; st; nb; t], rest))) by (intros m [= <-]; exists is, st, nb, t; auto).
  destruct (split_body lines) as (body & lines' & -> & F & Hn). rewrite list_text_body in H by auto. cbn [app] in H. destruct Hn as [|line lines' i' st' nb' t' Hd].
  - cbn [list_text] in H. apply save_text_iff in H as (e & E & ->); auto. exists body, [], e, []. rewrite !app_nil_r. repeat split; auto; [constructor|constructor].
  - pose proof Hd as Hd0. apply cmgl_text_match in Hd as (is' & x' & rest' & E & Di' & ->). rewrite (list_text_head _ _ _ _ _ _ _ _ _ _ _ E) in H.
    destruct (save_text (Some (x, [is; st; nb; t], rest)) (kept body) l) as [l'|] eqn:S; [|discriminate]. cbn [bind] in H. apply save_text_iff in S as (e & Ee & ->); auto.
    rewrite app_length in Hl. cbn [length] in Hl.
    apply (IH (length lines')) in H as (body' & lines2 & e' & es & -> & F' & Hn' & Ee' & T & ->); auto; [|lia].
    exists body, (line :: body' ++ lines2), e, (e' ++ es). split; auto. split; auto. split; [econstructor; eauto|]. split; auto. split.
    + apply text_of_cur in Ee' as [(K & ->)|(K & n' & tm & Sn & Pt & ->)]; auto; [eapply tt_empty; eauto|]. cbn [app]. eapply tt_entry; eauto.
    + unfold ext. cbn [fst snd]. rewrite !map_app, !fold_left_app, <- !app_assoc. auto.
Qed.
Lemma list_text_start lines l r : forall ml, list_text lines None ml l = Ok r -> exists es, taken_text lines es /\ r = ext l es.
Proof.
  intros ml H. destruct (split_body lines) as (body & lines' & -> & F & Hn). rewrite list_text_body in H by auto.
  assert (X : exists es, taken_text lines' es /\ r = ext l es).
  { destruct Hn as [|line lines' i' st' nb' t' Hd]; [cbn in H; injection H as <-; exists []; rewrite ext_nil; split; auto; constructor|].
    pose proof Hd as Hd0. apply cmgl_text_match in Hd as (is' & x' & rest' & E & Di' & ->). rewrite (list_text_head _ _ _ _ _ _ _ _ _ _ _ E) in H. cbn [save_text bind] in H.
    apply (list_text_taken (length lines')) in H as (body' & lines2 & e' & es & -> & F' & Hn' & Ee' & T & ->); auto. exists (e' ++ es). split; auto.
    apply text_of_cur in Ee' as [(K & ->)|(K & n' & tm & Sn & Pt & ->)]; auto; [eapply tt_empty; eauto|]. cbn [app]. eapply tt_entry; eauto. }
  destruct X as (es & T & ->). exists es. split; auto. clear H Hn. induction F; auto. cbn. constructor; auto.
Qed.
Lemma taken_text_list lines es : taken_text lines es -> forall l cur ml e, head_of cur -> header_next lines -> entry_of cur ml e -> list_text lines cur ml l = Ok (ext l (e ++ es)).
Proof.
  assert (Hs : forall is st nb t x rest, digits is -> head_of (Some (x, [is; st; nb; t], rest))) by (intros is st nb t x rest Di m [= <-]; exists is, st, nb, t; auto).
  assert (Hx : forall (l : listing) a b, ext (ext l a) b = ext l (a ++ b)) by (intros; unfold ext; cbn [fst snd]; rewrite !map_app, !fold_left_app, !app_assoc; auto).
  induction 1 as [|line lines es N T IH|head i st nb t body n tm lines es Hd F Hn K Sn Pt T IH|head i st nb t body lines es Hd F Hn K T IH]; intros l cur ml e Hc Hh He.
  - cbn [list_text]. apply save_text_iff; auto. exists e. rewrite app_nil_r. auto.
  - inversion Hh; subst. exfalso. eapply N; eauto.
  - apply cmgl_text_match in Hd as (is & x & rest & E & Di & ->). rewrite (list_text_head _ _ _ _ _ _ _ _ _ _ _ E).
    assert (S : save_text cur ml l = Ok (ext l e)) by (apply save_text_iff; eauto). rewrite S. cbn [bind]. rewrite list_text_body by auto. cbn [app].
    rewrite (IH _ _ _ [(dec_value is, Received n (Some nb) tm (text_of (kept body)) None)]); auto; [rewrite Hx; auto|]. unfold entry_of. destruct (kept body) as [|y k]; [congruence|].
    exists is, st, nb, t, n, tm. auto 8.
  - apply cmgl_text_match in Hd as (is & x & rest & E & Di & ->). rewrite (list_text_head _ _ _ _ _ _ _ _ _ _ _ E).
    assert (S : save_text cur ml l = Ok (ext l e)) by (apply save_text_iff; eauto). rewrite S. cbn [bind]. rewrite list_text_body, K by auto. cbn [app].
    rewrite (IH _ _ _ []); auto; [rewrite Hx; auto|reflexivity].
Qed.
Lemma taken_text_start lines es : taken_text lines es -> forall ml l, list_text lines None ml l = Ok (ext l es).
Proof.
  assert (Hn : head_of None) by (intros m H; discriminate).
  intros H. induction H as [|line lines es N T IH| |]; intros ml l.
  - cbn. rewrite ext_nil. auto.
  - cbn [list_text]. apply cmgl_text_nomatch in N. rewrite N. auto.
  - apply (taken_text_list _ _ (tt_entry _ _ _ _ _ _ _ _ _ _ H H0 H1 H2 H3 H4 H5)) with (e := []); auto; [econstructor; eauto|reflexivity].
  - apply (taken_text_list _ _ (tt_empty _ _ _ _ _ _ _ _ H H0 H1 H2 H3)) with (e := []); auto; [econstructor; eauto|reflexivity].
Qed.
Definition parse_list (mode : bool) (answer : list str) : res listing := if mode then list_text answer None [] ([], []) else list_pdu answer None ([], []).
Lemma parse_list_iff mode answer r : parse_list mode answer = Ok r <-> exists es, taken mode answer es /\ r = ext ([], []) es.
Proof.
  unfold parse_list, taken. destruct mode; split.
  - apply list_text_start.
  - intros (es & T & ->). apply taken_text_start. auto.
  - intro H. apply list_pdu_taken in H. auto.
  - intros (es & T & ->). apply taken_pdu_list. auto.
Qed.
