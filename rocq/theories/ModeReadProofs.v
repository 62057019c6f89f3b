(** A response to AT+CMGR in the form of one mode is nothing to the regular expressions
    of the other. *)
From Verif Require Import Base RegexModel RegexProofs DateModel UtilModel UtilSpec UtilProofs PduModel ModemCore ModemSpec WriteProofs MonadProofs SmsModel SendSpec SendProofs LangProofs CoverageSpec CoverageProofs QueryProofs StoreSpec ReadProofs.

Definition quotes (s : str) : nat := count_occ Z.eq_dec s 34.
Lemma quotes_app a b : quotes (a ++ b) = (quotes a + quotes b)%nat. Proof. apply count_occ_app. Qed.
Lemma quotes_cons c b : quotes (c :: b) = ((if Z.eq_dec c 34 then 1 else 0) + quotes b)%nat. Proof. unfold quotes. cbn. destruct (Z.eq_dec c 34); lia. Qed.
Lemma quotes_none a : ~ In 34 a -> quotes a = 0%nat. Proof. apply count_occ_not_In. Qed.
Lemma quotes_digits a : Forall (fun c => is_digit c = true) a -> quotes a = 0%nat.
Proof. intros F. apply quotes_none. intros I. rewrite Forall_forall in F. specialize (F _ I). discriminate. Qed.
Lemma quotes_end nl : line_end nl -> quotes nl = 0%nat.
Proof. unfold line_end. intros [->| ->]; reflexivity. Qed.
Lemma quotes_opt q : q = [] \/ q = [34] -> (quotes q <= 1)%nat. Proof. intros [->| ->]; cbn; lia. Qed.
Lemma header_quotes line stat : pdu_header line stat -> (quotes line <= 2)%nat.
Proof.
  intros (ds & q1 & alpha & q2 & len & nl & -> & D & Q1 & A & Q2 & L & E & _). rewrite quotes_app. change (quotes (lit "+CMGR: ")) with 0%nat.
  repeat rewrite ?quotes_app, ?quotes_cons. cbn [Z.eq_dec]. pose proof (quotes_digits _ D). pose proof (quotes_opt _ Q1). pose proof (quotes_none _ A).
  pose proof (quotes_opt _ Q2). pose proof (quotes_digits _ (proj2 L)). pose proof (quotes_end _ E).
  repeat destruct (Z.eq_dec _ _); lia.
Qed.
Ltac lits := repeat match goal with |- context [quotes (lit ?x)] => let n := eval vm_compute in (quotes (lit x)) in change (quotes (lit x)) with n end.
Lemma lang_pdu t g rest : lang CMGR_REGEX_PDU t g rest -> (quotes (t ++ rest) <= 2)%nat.
Proof.
  intros La. unfold CMGR_REGEX_PDU in La. lang_inv La. rewrite !quotes_app. lits. apply opt_is in F0, F2. apply c_not_not_in in F1.
  pose proof (quotes_digits _ F). pose proof (quotes_opt _ F0). pose proof (quotes_none _ F1). pose proof (quotes_opt _ F2). pose proof (quotes_digits _ F3).
  pose proof (quotes_end _ La). cbn [quotes count_occ]. change (quotes []) with 0%nat. lia.
Qed.
Lemma lang_deliver t g rest : lang CMGR_SM_DELIVER_REGEX_TEXT t g rest -> (3 <= quotes (t ++ rest))%nat.
Proof. intros La. unfold CMGR_SM_DELIVER_REGEX_TEXT in La. lang_inv La. rewrite !quotes_app. lits. lia. Qed.
Lemma lang_report t g rest : lang CMGR_SM_REPORT_REGEXT_TEXT t g rest -> (3 <= quotes (t ++ rest))%nat.
Proof. intros La. unfold CMGR_SM_REPORT_REGEXT_TEXT in La. lang_inv La. rewrite !quotes_app. lits. lia. Qed.
Lemma text_quotes line status number time : text_header line status number time -> (3 <= quotes line)%nat.
Proof.
  intros (alpha & nl & -> & _). repeat rewrite ?quotes_app, ?quotes_cons. repeat match goal with |- context [Z.eq_dec 34 34] => destruct (Z.eq_dec 34 34); [|congruence] end. lia.
Qed.
Lemma report_quotes line status reference number sent finalized code : report_header line status reference number sent finalized code -> (3 <= quotes line)%nat.
Proof.
  intros (st & fo & rf & ty & cd & nl & -> & _). repeat rewrite ?quotes_app, ?quotes_cons.
  repeat match goal with |- context [Z.eq_dec 34 34] => destruct (Z.eq_dec 34 34); [|congruence] end. lia.
Qed.
(** reading it in the other mode *)
Lemma other_mode b lines s more : reads_as b lines s ->
  (if b then parse_cmgr_pdu (lines ++ more) else parse_cmgr_text (lines ++ more)) = Err parse_failed.
Proof.
  assert (P : forall head, (3 <= quotes head)%nat -> re_match CMGR_REGEX_PDU head = None).
  { intros head Q. apply re_match_none. intros t g rest -> La. apply lang_pdu in La. lia. }
  intros H. destruct H as [head stat pdu tail d s Hh|head status number time body n t Hh|head status reference number sent finalized code body n t1 t2 Hh];
    cbn [app]; unfold parse_cmgr_pdu, parse_cmgr_text.
  - apply header_quotes in Hh. rewrite (proj2 (re_match_none CMGR_SM_DELIVER_REGEX_TEXT head)), (proj2 (re_match_none CMGR_SM_REPORT_REGEXT_TEXT head)); [reflexivity| |].
    + intros t g rest -> La. apply lang_report in La. lia.
    + intros t g rest -> La. apply lang_deliver in La. lia.
  - rewrite (P head (text_quotes _ _ _ _ Hh)). reflexivity.
  - rewrite (P head (report_quotes _ _ _ _ _ _ _ Hh)). reflexivity.
Qed.
