(** What readStoredSms makes of a response. *)
From Verif Require Import Base RegexModel RegexProofs DateModel UtilModel UtilSpec UtilProofs PduModel ModemCore ModemSpec WriteProofs MonadProofs SmsModel SendSpec SendProofs LangProofs CoverageSpec CoverageProofs QueryProofs StoreSpec.

Lemma opt_is c a : (a = [] \/ exists x, a = [x] /\ c_is c x = true) <-> (a = [] \/ a = [c]).
Proof.
  unfold c_is. split.
  - intros [->|(x & -> & E)]; auto. apply Z.eqb_eq in E. subst. auto.
  - intros [->| ->]; auto. right. exists c. rewrite Z.eqb_refl. auto.
Qed.
Lemma nodigit c ds x y : Forall (fun c => is_digit c = true) ds -> is_digit c = false -> forall ds', Forall (fun c => is_digit c = true) ds' ->
  ds ++ c :: x = ds' ++ c :: y -> ds = ds' /\ x = y.
Proof. intros F N ds' F' E. apply (span_unique is_digit) in E as [-> E]; auto. injection E as ->. auto. Qed.
Lemma noquote c (a b x y : str) : ~ In c a -> ~ In c b -> a ++ c :: x = b ++ c :: y -> a = b /\ x = y.
Proof.
  intros F F' E. apply (span_unique (c_not c)) in E as [-> E]; try apply c_not_not_in; auto; try (cbn; unfold c_not; rewrite Z.eqb_refl; auto).
  injection E as ->. auto.
Qed.

(** ** PDU mode *)
Lemma pdu_header_match line stat : pdu_header line stat -> exists ds m, re_match CMGR_REGEX_PDU line = Some m /\ group 1 m = ds /\
  Forall (fun c => is_digit c = true) ds /\ stat = dec_value ds.
Proof.
  intros (ds & q1 & alpha & q2 & len & nl & -> & D & Q1 & A & Q2 & L & E & ->). exists ds.
  destruct (re_match CMGR_REGEX_PDU (lit "+CMGR: " ++ ds ++ 44 :: q1 ++ alpha ++ q2 ++ 44 :: len ++ nl)) as [[[t g] rest]|] eqn:M.
  - exists (t, g, rest). split; auto. split; auto. apply re_match_some in M as [Es La]. unfold CMGR_REGEX_PDU in La. lang_inv La.
    appn_in Es. apply app_inv_head in Es. apply (nodigit 44) in Es as [-> _]; auto.
  - exfalso. rewrite re_match_none in M. apply (M (lit "+CMGR: " ++ ds ++ 44 :: q1 ++ alpha ++ q2 ++ 44 :: len) [ds; alpha; len] nl); [appn; auto|].
    unfold CMGR_REGEX_PDU. apply seq_lit. eexists. split; [reflexivity|]. apply seq_gstar. exists ds, (44 :: q1 ++ alpha ++ q2 ++ 44 :: len), [alpha; len]. repeat split; auto.
    apply seq_lit. exists (q1 ++ alpha ++ q2 ++ 44 :: len). split; auto. apply seq_opt. exists q1, (alpha ++ q2 ++ 44 :: len). split; auto. split; [apply opt_is; auto|].
    apply seq_gstar. exists alpha, (q2 ++ 44 :: len), [len]. repeat split; auto; [apply c_not_not_in; auto|].
    apply seq_opt. exists q2, (44 :: len). split; auto. split; [apply opt_is; auto|]. apply seq_lit. exists len. split; auto.
    destruct L as [Ln Lf]. apply seq_gplus. exists len, [], []. rewrite app_nil_r. repeat split; auto.
Qed.
Lemma read_pdu head stat pdu more last d s : pdu_header head stat -> decodeSmsPdu pdu = Ok d -> message_of stat d s ->
  parse_cmgr_pdu ((head :: pdu :: more) ++ [last]) = Ok s.
Proof.
  intros H D Mo. apply pdu_header_match in H as (ds & m & M & G & F & ->). cbn [app parse_cmgr_pdu]. rewrite M, G, D. cbn [bind].
  assert (P : match py_int 10 ds with Ok n => n | Err _ => 0 end = dec_value ds).
  { destruct ds as [|c ds]; [reflexivity|]. rewrite py_int_digits by (auto; split; [discriminate|auto]). auto. }
  rewrite P. unfold sms_of_pdu. destruct Mo as [? ? ? ? ? E|? ? ? ? ? E]; rewrite E; auto.
Qed.

(** ** Text mode *)
Lemma text_header_match line status number time : text_header line status number time ->
  exists t rest, re_match CMGR_SM_DELIVER_REGEX_TEXT line = Some (t, [status; number; time], rest).
Proof.
  intros (alpha & nl & -> & Ns & S & Nn & N & A & Nt & T & E).
  exists (lit "+CMGR: " ++ 34 :: status ++ [34; 44; 34] ++ number ++ [34; 44] ++ alpha ++ [44; 34] ++ time ++ [34]), nl. apply re_match_unique.
  - appn. auto.
  - unfold CMGR_SM_DELIVER_REGEX_TEXT. apply seq_lit. exists (status ++ [34; 44; 34] ++ number ++ [34; 44] ++ alpha ++ [44; 34] ++ time ++ [34]). split; [reflexivity|].
    apply seq_gplus. exists status, ([34; 44; 34] ++ number ++ [34; 44] ++ alpha ++ [44; 34] ++ time ++ [34]), [number; time]. repeat split; auto; [apply c_not_not_in; auto|].
    apply seq_lit. exists (number ++ [34; 44] ++ alpha ++ [44; 34] ++ time ++ [34]). split; auto.
    apply seq_gplus. exists number, ([34; 44] ++ alpha ++ [44; 34] ++ time ++ [34]), [time]. repeat split; auto; [apply c_not_not_in; auto|].
    apply seq_lit. exists (alpha ++ [44; 34] ++ time ++ [34]). split; auto. apply seq_star. exists alpha, ([44; 34] ++ time ++ [34]). repeat split; auto; [apply c_not_not_in; auto|].
    apply seq_lit. exists (time ++ [34]). split; auto. apply seq_gplus. exists time, [34], []. repeat split; auto; [apply c_not_not_in; auto|].
    apply seq_lit. exists []. split; auto. apply end_eol. auto.
  - intros t' g' rest' Es L. unfold CMGR_SM_DELIVER_REGEX_TEXT in L. lang_inv L. apply c_not_not_in in F, F0, F1, F2. appn_in Es. cbn in Es. injection Es as Es.
    apply (noquote 34) in Es as [-> Es]; auto. injection Es as Es. apply (noquote 34) in Es as [-> Es]; auto. injection Es as Es.
    apply (noquote 44) in Es as [-> Es]; auto. injection Es as Es. apply (noquote 34) in Es as [-> ->]; auto.
Qed.
Lemma status_named_eq status n : status_named status n -> text_status status = Ok n.
Proof. intro H. cbn in H. repeat (destruct H as [[= <- <-]|H]; [reflexivity|]). contradiction. Qed.
Lemma removelast_snoc {A} (l : list A) x : removelast (l ++ [x]) = l.
Proof. rewrite removelast_app by discriminate. cbn. apply app_nil_r. Qed.
Lemma join_text lines : join [10] lines = text_of lines.
Proof. induction lines as [|l ls IH]; auto. destruct ls as [|l2 ls]; auto. change (join [10] (l :: l2 :: ls)) with (l ++ [10] ++ join [10] (l2 :: ls)). rewrite IH. auto. Qed.
Lemma read_text head status number time body last n t : text_header head status number time -> status_named status n -> parseTextModeTimeStr time = Ok t ->
  parse_cmgr_text ((head :: body) ++ [last]) = Ok (Received n (Some number) t (text_of body) None).
Proof.
  intros H S T. apply text_header_match in H as (t0 & rest & M). cbn [app parse_cmgr_text]. rewrite M. unfold group. cbn [groups fst snd nth Nat.sub].
  rewrite (status_named_eq _ _ S). cbn [bind]. rewrite T. cbn [bind]. rewrite removelast_snoc, join_text. auto.
Qed.

Lemma report_not_deliver line status rf number sent finalized code : report_header line status rf number sent finalized code ->
  re_match CMGR_SM_DELIVER_REGEX_TEXT line = None.
Proof.
  intros (st & fo & rf' & ty & cd & nl & -> & St & [Nf Fo] & _). apply re_match_none. intros t g rest Es L. unfold CMGR_SM_DELIVER_REGEX_TEXT in L. lang_inv L.
  appn_in Es. cbn in Es. injection Es as Es. destruct St as [[-> _]|(-> & Ns & Q & _)]; [discriminate|].
  appn_in Es. injection Es as Es. apply c_not_not_in in F. apply (noquote 34) in Es as [-> Es]; auto. injection Es as Es.
  destruct fo as [|c fo]; [congruence|]. cbn in Es. injection Es as -> _. inversion Fo; discriminate.
Qed.
Lemma report_match line status rf number sent finalized code : report_header line status rf number sent finalized code ->
  exists st rfs cds t rest, re_match CMGR_SM_REPORT_REGEXT_TEXT line = Some (t, [st; rfs; number; sent; finalized; cds], rest) /\
    ((st = [] /\ status = lit "REC UNREAD") \/ (st = 34 :: status ++ [34] /\ status <> [])) /\ digits rfs /\ rf = dec_value rfs /\ digits cds /\ code = dec_value cds.
Proof.
  intros (st & fo & rfs & ty & cd & nl & -> & St & [Nf Fo] & [Nr Rf] & -> & Q & C & Ty & Ns & S & Nz & Z & [Nc Cd] & -> & E).
  assert (Sc : ~ In 44 st).
  { destruct St as [[-> _]|(-> & _ & _ & X)]; [intros []|]. cbn. rewrite in_app_iff. intros [H|[H|[H|[]]]]; [discriminate|auto|discriminate]. }
  exists st, rfs, cd, (lit "+CMGR: " ++ st ++ 44 :: fo ++ 44 :: rfs ++ [44; 34] ++ number ++ [34; 44] ++ ty ++ [44; 34] ++ sent ++ [34; 44; 34] ++ finalized ++ [34; 44] ++ cd), nl.
  split; [|split; [destruct St as [?|(? & ? & _)]; auto|repeat split; auto]].
  apply re_match_unique.
  - appn. auto.
  - unfold CMGR_SM_REPORT_REGEXT_TEXT.
    apply seq_lit. eexists. split; [reflexivity|]. apply seq_gstar. do 3 eexists. split; [reflexivity|]. split; [reflexivity|]. split; [apply c_not_not_in; auto|].
    apply seq_lit. eexists. split; [reflexivity|]. apply seq_plus. do 2 eexists. split; [reflexivity|]. split; [auto|]. split; [auto|].
    apply seq_lit. eexists. split; [reflexivity|]. apply seq_gplus. do 3 eexists. split; [reflexivity|]. split; [reflexivity|]. split; [auto|]. split; [auto|].
    apply seq_lit. exists ([34] ++ number ++ [34; 44] ++ ty ++ [44; 34] ++ sent ++ [34; 44; 34] ++ finalized ++ [34; 44] ++ cd). split; [reflexivity|].
    apply seq_opt. do 2 eexists. split; [reflexivity|]. split; [apply opt_is; auto|]. apply seq_gstar. do 3 eexists. split; [reflexivity|]. split; [reflexivity|]. split; [apply c_not_not_in; auto|].
    apply seq_opt. exists [34], (44 :: ty ++ [44; 34] ++ sent ++ [34; 44; 34] ++ finalized ++ [34; 44] ++ cd). split; [reflexivity|]. split; [apply opt_is; auto|].
    apply seq_lit. eexists. split; [reflexivity|]. apply seq_star. do 2 eexists. split; [reflexivity|]. split; [auto|].
    apply seq_lit. eexists. split; [reflexivity|]. apply seq_gplus. do 3 eexists. split; [reflexivity|]. split; [reflexivity|]. split; [auto|]. split; [apply c_not_not_in; auto|].
    apply seq_lit. eexists. split; [reflexivity|]. apply seq_gplus. do 3 eexists. split; [reflexivity|]. split; [reflexivity|]. split; [auto|]. split; [apply c_not_not_in; auto|].
    apply seq_lit. eexists. split; [reflexivity|]. apply seq_gplus. exists cd, [], []. rewrite app_nil_r. repeat split; auto.
  - intros t' g' rest' Es L. unfold CMGR_SM_REPORT_REGEXT_TEXT in L. lang_inv L. apply c_not_not_in in F, F3, F6, F7. apply opt_is in F2, F4.
    appn_in Es. apply app_inv_head in Es. apply (noquote 44) in Es as [-> Es]; auto. apply (nodigit 44) in Es as [-> Es]; auto. apply (nodigit 44) in Es as [-> Es]; auto.
    destruct F2 as [->| ->]; cbn [app] in Es.
    + exfalso. destruct a3 as [|x a3]; [|injection Es as <- _; apply F3; left; auto]. cbn [app] in Es. destruct F4 as [->| ->]; cbn [app] in Es; [discriminate|].
      injection Es as Es. destruct number as [|x number]; cbn [app] in Es; [discriminate|]. injection Es as -> _. apply C. left. auto.
    + injection Es as Es. destruct F4 as [->| ->]; cbn [app] in Es.
      * exfalso. destruct (list_eq_dec Z.eq_dec a3 number) as [->|Ne]; [apply app_inv_head in Es; discriminate|].
        assert (X : forall (a b : str) x y c d, ~ In d a -> ~ In c b -> a ++ c :: x = b ++ d :: y -> c <> d -> False).
        { clear. induction a as [|u a IH]; intros b x y c d Na Nb H Hn; destruct b as [|v b]; cbn in H.
          - injection H as -> _. congruence.
          - injection H as -> _. apply Nb. left. auto.
          - injection H as -> _. apply Na. left. auto.
          - injection H as -> H. refine (IH b x y c d _ _ H Hn); intro I; [apply Na|apply Nb]; right; auto. }
        refine (X number a3 _ _ 34 44 C F3 Es _). discriminate.
      * apply (noquote 34) in Es as [-> Es]; auto. injection Es as Es. apply (nodigit 44) in Es as [-> Es]; auto. injection Es as Es.
        apply (noquote 34) in Es as [-> Es]; auto. injection Es as Es. apply (noquote 34) in Es as [-> Es]; auto. injection Es as Es.
        destruct (digits_end_unique cd nl a8 rest') as [-> ->]; auto; try (split; auto). rewrite app_nil_r. auto.
Qed.
Lemma quoted_starts s : startswith (34 :: s) (lit """") = true.
Proof. destruct s; reflexivity. Qed.
Lemma read_report head status rf number sent finalized code body last n t1 t2 : report_header head status rf number sent finalized code ->
  status_named status n -> parseTextModeTimeStr sent = Ok t1 -> parseTextModeTimeStr finalized = Ok t2 ->
  parse_cmgr_text ((head :: body) ++ [last]) = Ok (Report n rf (Some number) t1 t2 code).
Proof.
  intros H S T1 T2. pose proof (report_not_deliver _ _ _ _ _ _ _ H) as Nd. apply report_match in H as (st & rfs & cds & t & rest & M & St & Dr & -> & Dc & ->).
  cbn [app parse_cmgr_text]. rewrite Nd, M. unfold group. cbn [groups fst snd nth Nat.sub].
  assert (X : match (if startswith st (lit """") then removelast (tl st) else st) with [] => lit "REC UNREAD" | _ => (if startswith st (lit """") then removelast (tl st) else st) end = status).
  { destruct St as [[-> ->]|[-> Ne]]; [reflexivity|]. rewrite quoted_starts. cbn [tl]. rewrite removelast_snoc. destruct status; [congruence|auto]. }
  cbv zeta. match goal with |- context [text_status ?z] => replace z with status by (symmetry; exact X) end. rewrite (status_named_eq _ _ S). cbn [bind]. rewrite (py_int_digits _ Dr). cbn [bind]. rewrite T1. cbn [bind]. rewrite T2. cbn [bind].
  rewrite (py_int_digits _ Dc). auto.
Qed.
Lemma reads_ok mode content s last : reads_as mode content s ->
  (if mode then parse_cmgr_text (content ++ [last]) else parse_cmgr_pdu (content ++ [last])) = Ok s.
Proof. destruct 1; [eapply read_pdu; eauto|eapply read_text; eauto|eapply read_report; eauto]. Qed.
Lemma ok_no_pdu d : decodeSmsPdu (lit "OK") <> Ok d.
Proof. vm_compute. discriminate. Qed.
Lemma ok_no_header : re_match CMGR_REGEX_PDU (lit "OK") = None.
Proof. vm_compute. reflexivity. Qed.
Lemma read_pdu_inv content s : parse_cmgr_pdu (content ++ [lit "OK"]) = Ok s -> reads_as false content s.
Proof.
  intro H. destruct content as [|head [|pdu more]]; cbn [app parse_cmgr_pdu] in H.
  { rewrite ok_no_header in H. discriminate. }
  { destruct (re_match CMGR_REGEX_PDU head); [|discriminate]. destruct (decodeSmsPdu (lit "OK")) as [d|] eqn:D; [|discriminate]. apply ok_no_pdu in D. tauto. }
  destruct (re_match CMGR_REGEX_PDU head) as [[[t g] rest]|] eqn:M; [|discriminate]. apply re_match_some in M as [-> L]. unfold CMGR_REGEX_PDU in L. lang_inv L.
  apply opt_is in F0, F2. apply c_not_not_in in F1. unfold group in H. cbn [groups fst snd nth Nat.sub] in H.
  destruct (decodeSmsPdu pdu) as [d|] eqn:D; [|discriminate]. cbn [bind] in H.
  assert (P : match py_int 10 a with Ok n => n | Err _ => 0 end = dec_value a).
  { destruct a as [|c ds]; [reflexivity|]. rewrite py_int_digits by (auto; split; [discriminate|auto]). auto. }
  rewrite P in H. apply (ra_pdu _ (dec_value a) _ _ d).
  - exists a, a0, a1, a2, a3, rest. split; [appn; rewrite ?app_nil_r; auto|]. split; auto. split; auto. split; auto. split; auto. split; [split; auto|]. auto.
  - auto.
  - unfold sms_of_pdu in H. destruct (sms_type d) eqn:Ty; try discriminate; injection H as <-; [eapply mo_deliver; eauto|eapply mo_report; eauto].
Qed.
