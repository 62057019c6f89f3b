(** Executions in which calls of sendSms get into each other's way. *)
From Verif Require Import Base PduModel PduSpec SubmitProofs ModemCore ModemSpec WriteProofs MonadProofs SendSpec SendProofs TrackSpec TrackProofs CoverageSpec CoverageProofs
  SmsModel StoreSpec StoreLemmas ReadProofs StoreProofs SenderModel SenderSpec SenderProofs.

(** ** Steps *)
Lemma rn_more mode s ls s1 l s2 ls' : runs mode s ls s1 -> sys_step mode s1 l s2 -> ls' = ls ++ l -> runs mode s ls' s2.
Proof. intros R T ->. econstructor; eauto. Qed.
Definition prompt : reply := Lines [lit "> "].
Definition wrong_pdu : reply := Lines [lit "+CMS ERROR: 304"].
Definition busy : reply := Lines [lit "+CMS ERROR: 515"].
Lemma good_prompt : good_answer [lit "> "].
Proof. exists [], (lit "> "). split; auto. split; intro H; [apply contains_iff in H; vm_compute in H; discriminate H|discriminate H]. Qed.
Lemma announced_ok c : attempt_with c CR prompt = Some (Ok [lit "> "]).
Proof. apply with_good. apply good_prompt. Qed.
Lemma refused b : attempt_with b CTRL_Z wrong_pdu = Some (Err (CmsError b 304)).
Proof. vm_compute. reflexivity. Qed.
Lemma silent c : attempt_with c CR (NoReply []) = Some (Err (TimeoutException None)).
Proof. reflexivity. Qed.
Lemma busy_retry b : attempt_with b CTRL_Z busy = None.
Proof. vm_compute. reflexivity. Qed.
Lemma not_good_of ls e : attempt_with [] CR (Lines ls) = e -> (forall x, e <> Some (Ok x)) -> ~ good_answer ls.
Proof. intros E N G. rewrite (with_good [] CR ls G) in E. subst e. eapply N. reflexivity. Qed.
Lemma wrong_not_good : forall ls, wrong_pdu = Lines ls -> ~ good_answer ls.
Proof. intros ls E. injection E as <-. eapply not_good_of; [vm_compute; reflexivity|discriminate]. Qed.
Lemma busy_not : forall ls, busy = Lines ls -> ~ good_answer ls.
Proof. intros ls E. injection E as <-. eapply not_good_of; [vm_compute; reflexivity|discriminate]. Qed.
Definition sent_as (n : str) : list str := [lit "+CMGS: " ++ n; lit "OK"].
Lemma good_ok_line : good_line (lit "OK").
Proof. split; intro H; [apply contains_iff in H; vm_compute in H; discriminate H|discriminate H]. Qed.
Lemma good_sent n : good_answer (sent_as n).
Proof. exists [lit "+CMGS: " ++ n], (lit "OK"). split; auto. apply good_ok_line. Qed.
Lemma sent_line n : lineStartingWith (lit "+CMGS:") (sent_as n) = Some (lit "+CMGS: " ++ n).
Proof. reflexivity. Qed.

Lemma encodable_parts mode j ref : encodable mode j ref -> exists p ps, parts_of mode j ref = Ok (p :: ps).
Proof.
  intro En. assert (exists ps, parts_of mode j ref = Ok ps) as (ps & E).
  { unfold parts_of. destruct mode; [eauto|]. destruct En as [En|(pdus & ->)]; [discriminate En|]. cbn. eauto. }
  destruct ps as [|p ps]; [destruct (parts_nonempty _ _ _ _ E eq_refl)|]. eauto.
Qed.
Lemma step_encode mode h p ts i j q qs : nth_error ts i = Some (Sending j Encode) -> parts_of mode j (sh_ref h) = Ok (q :: qs) ->
  sys_step mode (mk_system h p ts) [] (mk_system h p (update ts i (fun _ => Sending j (Announce q qs)))).
Proof. intros E P. eapply sy_quiet; [exact E|]. pose proof (ss_encode mode j h) as T. rewrite P in T. exact T. Qed.
Lemma step_announce mode h ts i j q qs : nth_error ts i = Some (Sending j (Announce q qs)) -> announcement (fst q) ->
  sys_step mode (mk_system h Idle ts) [LPut (Some i) (fst q ++ [13]) prompt None] (mk_system h (Prompted (fst q) false) (update ts i (fun _ => Sending j (Transmit q qs)))).
Proof.
  intros E A. pose proof (ss_announce mode j h q qs prompt) as T. rewrite announced_ok in T. eapply sy_put; [exact E|exact T|]. apply tk_announce; auto. apply good_prompt.
Qed.
Lemma step_text mode h c ts i j q qs n : nth_error ts i = Some (Sending j (Transmit q qs)) ->
  sys_step mode (mk_system h (Prompted c false) ts) [LPut (Some i) (snd q ++ [26]) (Lines (sent_as n)) (Some (c, snd q))] (mk_system h Idle (update ts i (fun _ => Sending j (continue qs (sent_as n))))).
Proof.
  intros E. pose proof (ss_transmit mode j h q qs (Lines (sent_as n))) as T. rewrite with_good in T by apply good_sent. eapply sy_put; [exact E|exact T|]. apply tk_accept. apply good_sent.
Qed.
Lemma step_wrong mode h c sp ts i j q qs : nth_error ts i = Some (Sending j (Transmit q qs)) ->
  sys_step mode (mk_system h (Prompted c sp) ts) [LPut (Some i) (snd q ++ [26]) wrong_pdu None] (mk_system h Idle (update ts i (fun _ => Sending j (Over (Err (CmsError (snd q) 304)))))).
Proof.
  intros E. pose proof (ss_transmit mode j h q qs wrong_pdu) as T. rewrite refused in T. eapply sy_put; [exact E|exact T|]. apply tk_reject. apply wrong_not_good.
Qed.
Lemma step_busy mode h c sp ts i j q qs : nth_error ts i = Some (Sending j (Transmit q qs)) ->
  sys_step mode (mk_system h (Prompted c sp) ts) [LPut (Some i) (snd q ++ [26]) busy None] (mk_system h Idle (update ts i (fun _ => Sending j (Transmit q qs)))).
Proof.
  intros E. pose proof (ss_transmit mode j h q qs busy) as T. rewrite busy_retry in T. eapply sy_put; [exact E|exact T|]. apply tk_reject. apply busy_not.
Qed.
Lemma step_swallowed mode h c sp ts i j q qs : nth_error ts i = Some (Sending j (Announce q qs)) ->
  sys_step mode (mk_system h (Prompted c sp) ts) [LPut (Some i) (fst q ++ [13]) (NoReply []) None] (mk_system h (Prompted c true) (update ts i (fun _ => Sending j (Over (Err (TimeoutException None)))))).
Proof.
  intros E. pose proof (ss_announce mode j h q qs (NoReply [])) as T. rewrite silent in T. eapply sy_put; [exact E|exact T|]. apply tk_swallow.
Qed.

(** any command between an announcement and its message *)
Theorem disturbed mode h j o : ~ announcement o -> encodable mode j (sh_ref h) ->
  exists c b ps s e, message_parts mode j (sh_ref h) ((c, b) :: ps) /\
    runs mode (mk_system h Idle []) [LPut (Some 0%nat) (c ++ [13]) (Lines [lit "> "]) None; LPut None (o ++ [13]) (NoReply []) None;
                                     LPut (Some 0%nat) (b ++ [26]) (Lines [lit "+CMS ERROR: 304"]) None] s /\
    sy_threads s = [Sending j (Over (Err e))].
Proof.
  intros No En. destruct (encodable_parts _ _ _ En) as ((c & b) & ps & E). pose proof (parts_announce _ _ _ _ _ E (or_introl eq_refl)) as A.
  exists c, b, ps. pose proof (rn_nil mode (mk_system h Idle [])) as R.
  pose proof (rn_step _ _ _ _ _ _ R (sy_call mode h Idle [] j)) as R1.
  pose proof (rn_step _ _ _ _ _ _ R1 (step_encode mode h Idle [Sending j Encode] 0 j _ _ eq_refl E)) as R2.
  pose proof (rn_step _ _ _ _ _ _ R2 (step_announce mode h [Sending j (Announce (c, b) ps)] 0 j _ _ eq_refl A)) as R3.
  pose proof (rn_step _ _ _ _ _ _ R3 (sy_other mode h _ _ o _ _ _ No (tk_swallow c false o))) as R4.
  pose proof (rn_step _ _ _ _ _ _ R4 (step_wrong mode h c true [Sending j (Transmit (c, b) ps)] 0 j _ _ eq_refl)) as R5.
  eexists. eexists. split; [apply parts_spec; exact E|]. split; [exact R5|]. reflexivity.
Qed.
(** two calls: both messages fail *)
Theorem both_fail mode h j1 j2 : encodable mode j1 (sh_ref h) -> encodable mode j2 (sh_ref h) ->
  exists c1 b1 ps1 c2 b2 ps2 s e1 e2, message_parts mode j1 (sh_ref h) ((c1, b1) :: ps1) /\ message_parts mode j2 (sh_ref h) ((c2, b2) :: ps2) /\
    runs mode (mk_system h Idle []) [LPut (Some 0%nat) (c1 ++ [13]) (Lines [lit "> "]) None; LPut (Some 1%nat) (c2 ++ [13]) (NoReply []) None;
                                     LPut (Some 0%nat) (b1 ++ [26]) (Lines [lit "+CMS ERROR: 304"]) None] s /\
    sy_threads s = [Sending j1 (Over (Err e1)); Sending j2 (Over (Err e2))].
Proof.
  intros En1 En2. destruct (encodable_parts _ _ _ En1) as ((c1 & b1) & ps1 & E1). pose proof (parts_announce _ _ _ _ _ E1 (or_introl eq_refl)) as A1.
  destruct (encodable_parts _ _ _ En2) as ((c2 & b2) & ps2 & E2).
  exists c1, b1, ps1, c2, b2, ps2. pose proof (rn_nil mode (mk_system h Idle [])) as R.
  pose proof (rn_step _ _ _ _ _ _ R (sy_call mode h Idle [] j1)) as R1.
  pose proof (rn_step _ _ _ _ _ _ R1 (sy_call mode h Idle [Sending j1 Encode] j2)) as R2. cbn [app] in R2.
  pose proof (rn_step _ _ _ _ _ _ R2 (step_encode mode h Idle [Sending j1 Encode; Sending j2 Encode] 0 j1 _ _ eq_refl E1)) as R3.
  pose proof (rn_step _ _ _ _ _ _ R3 (step_encode mode h Idle [Sending j1 (Announce (c1, b1) ps1); Sending j2 Encode] 1 j2 _ _ eq_refl E2)) as R4.
  pose proof (rn_step _ _ _ _ _ _ R4 (step_announce mode h [Sending j1 (Announce (c1, b1) ps1); Sending j2 (Announce (c2, b2) ps2)] 0 j1 _ _ eq_refl A1)) as R5.
  pose proof (rn_step _ _ _ _ _ _ R5 (step_swallowed mode h c1 false [Sending j1 (Transmit (c1, b1) ps1); Sending j2 (Announce (c2, b2) ps2)] 1 j2 _ _ eq_refl)) as R6.
  pose proof (rn_step _ _ _ _ _ _ R6 (step_wrong mode h c1 true [Sending j1 (Transmit (c1, b1) ps1); Sending j2 (Over (Err (TimeoutException None)))] 0 j1 _ _ eq_refl)) as R7.
  do 3 eexists. split; [apply parts_spec; exact E1|]. split; [apply parts_spec; exact E2|]. split; [exact R7|]. reflexivity.
Qed.

(** ** The rest of a call *)
Lemma sent_number n : digits n -> py_int 10 (skipn 7 (lit "+CMGS: " ++ n)) = Ok (dec_value n).
Proof. intro D. change (skipn 7 (lit "+CMGS: " ++ n)) with n. apply py_int_digits. auto. Qed.
Lemma step_number mode h p ts i j n : nth_error ts i = Some (Sending j (Number (sent_as n))) -> digits n ->
  sys_step mode (mk_system h p ts) [] (mk_system (put_ref (dec_value n + 1) h) p (update ts i (fun _ => Sending j (Check (dec_value n))))).
Proof. intros E D. eapply sy_quiet; [exact E|]. eapply ss_number; [apply sent_line|apply sent_number; auto]. Qed.
(** from the answer to the record, in one go *)
Lemma following_eq n : following n = if 255 <? n + 1 then 0 else n + 1.
Proof. unfold following. destruct (Z.ltb_spec n 255), (Z.ltb_spec 255 (n + 1)); auto; lia. Qed.
Definition noted (j : job) (n : Z) (h : shared) : shared :=
  put_table (zset (sh_table h) n (length (sh_objs h))) (put_objs (sh_objs h ++ [mk_sent (j_number j) (j_text j) n None]) (put_ref (following n) h)).
Definition after_note (j : job) (h : shared) : stage := if j_wait j then Expect (length (sh_objs h)) else Over (Ok (length (sh_objs h))).
Lemma update_same {A} (l : list A) i x y : update (update l i (fun _ => x)) i (fun _ => y) = update l i (fun _ => y).
Proof. revert i. induction l as [|a l IH]; intros [|i]; cbn; auto. rewrite IH. auto. Qed.
Lemma runs_note mode s0 ls h p ts i j n : runs mode s0 ls (mk_system h p ts) -> nth_error ts i = Some (Sending j (Number (sent_as n))) -> digits n ->
  runs mode s0 ls (mk_system (noted j (dec_value n) h) p (update ts i (fun _ => Sending j (after_note j h)))).
Proof.
  intros R E D. pose proof (rn_more _ _ _ _ _ _ _ R (step_number mode h p ts i j n E D) (eq_sym (app_nil_r ls))) as R1. clear R.
  set (N := dec_value n) in *.
  assert (E1 : nth_error (update ts i (fun _ => Sending j (Check N))) i = Some (Sending j (Check N))) by (eapply nth_update_here; eauto).
  pose proof (rn_more _ _ _ _ _ _ _ R1 (sy_quiet mode _ p _ i j _ _ _ E1 (ss_check mode j (put_ref (N + 1) h) N)) (eq_sym (app_nil_r ls))) as R2. clear R1 E1.
  rewrite update_same in R2. cbn [sh_ref put_ref] in R2. unfold noted, after_note. rewrite following_eq. destruct (255 <? N + 1).
  - assert (E2 : nth_error (update ts i (fun _ => Sending j (Reset N))) i = Some (Sending j (Reset N))) by (eapply nth_update_here; eauto).
    pose proof (rn_more _ _ _ _ _ _ _ R2 (sy_quiet mode _ p _ i j _ _ _ E2 (ss_reset mode j _ N)) (eq_sym (app_nil_r ls))) as R3. clear R2 E2. rewrite update_same in R3.
    assert (E3 : nth_error (update ts i (fun _ => Sending j (Record_ N))) i = Some (Sending j (Record_ N))) by (eapply nth_update_here; eauto).
    pose proof (rn_more _ _ _ _ _ _ _ R3 (sy_quiet mode _ p _ i j _ _ _ E3 (ss_record mode j _ N)) (eq_sym (app_nil_r ls))) as R4. rewrite update_same in R4. exact R4.
  - assert (E3 : nth_error (update ts i (fun _ => Sending j (Record_ N))) i = Some (Sending j (Record_ N))) by (eapply nth_update_here; eauto).
    pose proof (rn_more _ _ _ _ _ _ _ R2 (sy_quiet mode _ p _ i j _ _ _ E3 (ss_record mode j _ N)) (eq_sym (app_nil_r ls))) as R4. rewrite update_same in R4. exact R4.
Qed.
(** all parts, one after the other *)
Lemma runs_parts mode s0 h ts i j n : forall qs q ls, runs mode s0 ls (mk_system h Idle (update ts i (fun _ => Sending j (Announce q qs)))) -> (i < length ts)%nat ->
  Forall (fun x : part => announcement (fst x)) (q :: qs) ->
  exists ls', runs mode s0 (ls ++ ls') (mk_system h Idle (update ts i (fun _ => Sending j (Number (sent_as n))))) /\ accepted_of i ls' = q :: qs /\ (forall k, k <> i -> accepted_of k ls' = []) /\ told_of ls' = [].
Proof.
  induction qs as [|q' qs IH]; intros q ls R L F; inversion F as [|? ? A F']; subst;
    (assert (Ex : exists x, nth_error ts i = Some x) by (destruct (nth_error ts i) eqn:Ex; eauto; apply nth_error_None in Ex; lia); destruct Ex as [x Ex]).
  - assert (R1 := rn_step _ _ _ _ _ _ R (step_announce mode h _ i j q [] (nth_update_here ts i _ x Ex) A)). rewrite update_same in R1.
    assert (R2 := rn_step _ _ _ _ _ _ R1 (step_text mode h (fst q) _ i j q [] n (nth_update_here ts i _ x Ex))). rewrite update_same in R2.
    eexists. rewrite <- app_assoc in R2. split; [exact R2|]. rewrite <- surjective_pairing. split; [cbn; rewrite Nat.eqb_refl; auto|]. split; auto. intros k N. cbn. destruct (Nat.eqb_spec i k); [congruence|auto].
  - assert (R1 := rn_step _ _ _ _ _ _ R (step_announce mode h _ i j q (q' :: qs) (nth_update_here ts i _ x Ex) A)). rewrite update_same in R1.
    assert (R2 := rn_step _ _ _ _ _ _ R1 (step_text mode h (fst q) _ i j q (q' :: qs) n (nth_update_here ts i _ x Ex))). rewrite update_same in R2.
    destruct (IH q' _ R2 L F') as (ls' & R3 & A3 & A4 & A5). rewrite <- !app_assoc in R3. eexists. split; [exact R3|]. rewrite <- surjective_pairing. rewrite !accepted_app, A3. split; [cbn; rewrite Nat.eqb_refl; auto|]. split.
    + intros k N. rewrite !accepted_app, A4 by auto. cbn. destruct (Nat.eqb_spec i k); [congruence|auto].
    + unfold told_of in *. rewrite !flat_map_app, A5. auto.
Qed.
Lemma all_announce mode j ref ps : parts_of mode j ref = Ok ps -> Forall (fun x : part => announcement (fst x)) ps.
Proof. intro E. apply Forall_forall. intros x Hx. eapply parts_announce; eauto. Qed.
Lemma runs_sent mode s0 ls h ts i j ps n : runs mode s0 ls (mk_system h Idle ts) -> nth_error ts i = Some (Sending j Encode) -> parts_of mode j (sh_ref h) = Ok ps ->
  exists ls', runs mode s0 (ls ++ ls') (mk_system h Idle (update ts i (fun _ => Sending j (Number (sent_as n))))) /\ accepted_of i ls' = ps /\ (forall k, k <> i -> accepted_of k ls' = []) /\ told_of ls' = [].
Proof.
  intros R E P. destruct ps as [|q qs]; [destruct (parts_nonempty _ _ _ _ P eq_refl)|].
  pose proof (rn_more _ _ _ _ _ _ _ R (step_encode mode h Idle ts i j q qs E P) (eq_sym (app_nil_r ls))) as R1.
  apply (runs_parts mode s0 h ts i j n qs q ls R1); [apply nth_error_Some; congruence|eapply all_announce; eauto].
Qed.
Lemma runs_send mode s0 ls h ts i j ps n : runs mode s0 ls (mk_system h Idle ts) -> nth_error ts i = Some (Sending j Encode) -> parts_of mode j (sh_ref h) = Ok ps -> digits n ->
  exists ls', runs mode s0 (ls ++ ls') (mk_system (noted j (dec_value n) h) Idle (update ts i (fun _ => Sending j (after_note j h)))) /\ accepted_of i ls' = ps /\ (forall k, k <> i -> accepted_of k ls' = []) /\ told_of ls' = [].
Proof.
  intros R E P D. destruct (runs_sent mode s0 ls h ts i j ps n R E P) as (ls' & R1 & A). exists ls'. split; auto.
  pose proof (runs_note mode s0 _ h Idle _ i j n R1 (nth_update_here _ _ _ _ E) D) as R2. rewrite update_same in R2. exact R2.
Qed.
Lemma told_app a b : told_of (a ++ b) = told_of a ++ told_of b. Proof. apply flat_map_app. Qed.

(** ** In text mode a busy modem sends the text to the other number *)
Theorem misdirected h n1 t1 f1 n2 t2 f2 w2 : exists ls s obj st,
  runs true (mk_system h Idle []) ls s /\ sy_threads s = [Sending (mk_job n1 t1 f1 false) (Over (Ok obj)); Sending (mk_job n2 t2 f2 w2) st] /\
  accepted_any ls = [(lit "AT+CMGS=" ++ 34 :: n2 ++ [34], t1)].
Proof.
  set (j1 := mk_job n1 t1 f1 false). set (j2 := mk_job n2 t2 f2 w2). set (c1 := lit "AT+CMGS=""" ++ n1 ++ lit """"). set (c2 := lit "AT+CMGS=""" ++ n2 ++ lit """").
  assert (A1 : announcement (fst (c1, t1))) by (exists (34 :: n1 ++ [34]); reflexivity).
  assert (A2 : announcement (fst (c2, t2))) by (exists (34 :: n2 ++ [34]); reflexivity).
  pose proof (rn_nil true (mk_system h Idle [])) as R.
  pose proof (rn_step _ _ _ _ _ _ R (sy_call true h Idle [] j1)) as R1.
  pose proof (rn_step _ _ _ _ _ _ R1 (sy_call true h Idle [Sending j1 Encode] j2)) as R2. cbn [app] in R2.
  pose proof (rn_step _ _ _ _ _ _ R2 (step_encode true h Idle [Sending j1 Encode; Sending j2 Encode] 0 j1 (c1, t1) [] eq_refl eq_refl)) as R3.
  pose proof (rn_step _ _ _ _ _ _ R3 (step_encode true h Idle [Sending j1 (Announce (c1, t1) []); Sending j2 Encode] 1 j2 (c2, t2) [] eq_refl eq_refl)) as R4.
  pose proof (rn_step _ _ _ _ _ _ R4 (step_announce true h [Sending j1 (Announce (c1, t1) []); Sending j2 (Announce (c2, t2) [])] 0 j1 _ _ eq_refl A1)) as R5.
  pose proof (rn_step _ _ _ _ _ _ R5 (step_busy true h c1 false [Sending j1 (Transmit (c1, t1) []); Sending j2 (Announce (c2, t2) [])] 0 j1 _ _ eq_refl)) as R6.
  pose proof (rn_step _ _ _ _ _ _ R6 (step_announce true h [Sending j1 (Transmit (c1, t1) []); Sending j2 (Announce (c2, t2) [])] 1 j2 _ _ eq_refl A2)) as R7.
  pose proof (rn_step _ _ _ _ _ _ R7 (step_text true h c2 [Sending j1 (Transmit (c1, t1) []); Sending j2 (Transmit (c2, t2) [])] 0 j1 _ _ (lit "5") eq_refl)) as R8.
  assert (D : digits (lit "5")) by (split; [discriminate|repeat constructor]).
  pose proof (runs_note true _ _ h Idle [Sending j1 (Number (sent_as (lit "5"))); Sending j2 (Transmit (c2, t2) [])] 0 j1 (lit "5") R8 eq_refl D) as R9.
  do 4 eexists. split; [exact R9|]. split; reflexivity.
Qed.

(** ** The number of the next message *)
Theorem same_reference mode h j1 j2 n1 n2 : encodable mode j1 (sh_ref h) -> encodable mode j2 (sh_ref h) -> digits n1 -> digits n2 -> j_wait j1 = false -> j_wait j2 = false ->
  exists ls s o1 o2 ps1 ps2, runs mode (mk_system h Idle []) ls s /\ sy_threads s = [Sending j1 (Over (Ok o1)); Sending j2 (Over (Ok o2))] /\
    message_parts mode j1 (sh_ref h) ps1 /\ accepted_of 0 ls = ps1 /\ message_parts mode j2 (sh_ref h) ps2 /\ accepted_of 1 ls = ps2.
Proof.
  intros En1 En2 D1 D2 W1 W2. destruct (encodable_parts _ _ _ En1) as (q1 & qs1 & E1). destruct (encodable_parts _ _ _ En2) as (q2 & qs2 & E2).
  pose proof (rn_nil mode (mk_system h Idle [])) as R.
  pose proof (rn_step _ _ _ _ _ _ R (sy_call mode h Idle [] j1)) as R1.
  pose proof (rn_step _ _ _ _ _ _ R1 (sy_call mode h Idle [Sending j1 Encode] j2)) as R2. cbn [app] in R2.
  pose proof (rn_step _ _ _ _ _ _ R2 (step_encode mode h Idle [Sending j1 Encode; Sending j2 Encode] 1 j2 _ _ eq_refl E2)) as R3. cbn [update app] in R3.
  destruct (runs_send _ _ _ _ _ 0 j1 _ n1 R3 eq_refl E1 D1) as (l1 & R4 & A1 & B1 & _). cbn [update app] in R4.
  destruct (runs_parts mode _ _ [Sending j1 (after_note j1 h); Sending j2 Encode] 1 j2 n2 qs2 q2 _ R4) as (l2 & R5 & A2 & B2 & _); [cbn; lia|eapply all_announce; eauto|]. cbn [update app] in R5.
  pose proof (runs_note mode _ _ _ Idle [Sending j1 (after_note j1 h); Sending j2 (Number (sent_as n2))] 1 j2 n2 R5 eq_refl D2) as R6. cbn [update app] in R6.
  unfold after_note in R6. rewrite W1, W2 in R6. do 6 eexists. split; [exact R6|]. split; [reflexivity|]. rewrite !accepted_app, A1, A2, B1, B2 by auto. cbn [app]. rewrite app_nil_r.
  split; [apply parts_spec; eauto|]. split; auto. split; auto. apply parts_spec; auto.
Qed.
Lemma out_of_range number text ref fl pdus : encodeSmsSubmitPdu number text ref VNone None true false fl = Ok pdus -> 0 <= ref < 256.
Proof.
  intro E. destruct (pdus_fine _ _ _ _ _ E) as [N _]. destruct (encode_wires _ _ _ _ _ _ _ _ _ E) as (g & Hv & Hg & HL & HN). destruct pdus as [|p ps]; [congruence|].
  destruct (HN 0%nat p eq_refl) as [_ [w W]]. destruct W. apply pw_ref.
Qed.
(** a call that begins while another one has found the number 255 *)
Theorem number_race h j1 j2 : encodable false j1 (sh_ref h) -> exists ls s e,
  runs false (mk_system h Idle []) ls s /\ sy_threads s = [Sending j1 (Check 255); Sending j2 (Over (Err e))] /\ accepted_of 1 ls = [].
Proof.
  intros En1. destruct (encodable_parts _ _ _ En1) as (q1 & qs1 & E1).
  pose proof (rn_nil false (mk_system h Idle [])) as R.
  pose proof (rn_step _ _ _ _ _ _ R (sy_call false h Idle [] j1)) as R1.
  pose proof (rn_step _ _ _ _ _ _ R1 (sy_call false h Idle [Sending j1 Encode] j2)) as R2. cbn [app] in R2.
  destruct (runs_sent _ _ _ _ _ 0 j1 _ (lit "255") R2 eq_refl E1) as (l1 & R4 & A1 & B1 & _). cbn [update app] in R4.
  assert (D : digits (lit "255")) by (split; [discriminate|repeat constructor]).
  pose proof (rn_step _ _ _ _ _ _ R4 (step_number false h Idle [Sending j1 (Number (sent_as (lit "255"))); Sending j2 Encode] 0 j1 (lit "255") eq_refl D)) as R5. cbn [update app] in R5.
  pose proof (rn_step _ _ _ _ _ _ R5 (sy_quiet false _ Idle [Sending j1 (Check (dec_value (lit "255"))); Sending j2 Encode] 1 j2 _ _ _ eq_refl (ss_encode false j2 _))) as R6. cbn [update app] in R6.
  destruct (parts_of false j2 (sh_ref (put_ref (dec_value (lit "255") + 1) h))) as [ps|e] eqn:Ep.
  - exfalso. unfold parts_of in Ep. apply SubmitProofs.bind_ok in Ep as (pdus & Ep & _). apply out_of_range in Ep. vm_compute in Ep. destruct Ep as [_ Ep]. discriminate Ep.
  - do 3 eexists. split; [exact R6|]. split; [reflexivity|]. rewrite !app_nil_r. apply B1. discriminate.
Qed.
(** the number stays in range, except in between *)
Definition in_range (s : system) : Prop := 0 <= sh_ref (sy_shared s) <= 256 /\ (sh_ref (sy_shared s) = 256 -> exists t, In t (sy_threads s) /\ counting t).
Lemma counting_update ts i t0 t : nth_error ts i = Some t0 -> (counting t0 -> counting t) -> (exists x, In x ts /\ counting x) -> exists x, In x (update ts i (fun _ => t)) /\ counting x.
Proof.
  intros E H (x & I & C). apply In_nth_error in I as [k K]. destruct (Nat.eq_dec k i) as [->|N].
  - rewrite E in K. injection K as ->. exists t. split; auto. eapply nth_error_In. eapply nth_update_here. eauto.
  - exists x. split; auto. eapply nth_error_In. rewrite nth_update_else; eauto.
Qed.
Lemma counting_here ts i t0 t : nth_error ts i = Some t0 -> counting t -> exists x, In x (update ts i (fun _ => t)) /\ counting x.
Proof. intros E C. exists t. split; auto. eapply nth_error_In. eapply nth_update_here. eauto. Qed.
Theorem number_range mode h ls s : runs mode (mk_system h Idle []) ls s -> 0 <= sh_ref h <= 255 -> Forall modem_numbers ls -> in_range s.
Proof.
  intros R H0. induction R as [|ls s1 l s2 R IH T]; intro F.
  - split; cbn; lia.
  - apply Forall_app in F as [F1 F2]. destruct (IH F1) as [B C]. clear IH. pose proof (inv_runs _ _ _ _ R) as [_ Sa _ _].
    destruct T as [h0 p ts j|h0 p ts r code|h0 p ts i j st h' st' E T|h0 p ts i j st text r h' st' p' a E T Tk|h0 p ts i r code st told h' st' E T|h0 p ts c r p' a Nc Tk]; unfold in_range; cbn [sy_threads sy_shared sy_port] in *.
    + split; auto. intro X. destruct (C X) as (t & I & K). exists t. split; auto. apply in_or_app. auto.
    + split; auto. intro X. destruct (C X) as (t & I & K). exists t. split; auto. apply in_or_app. auto.
    + remember None as w eqn:Ew. destruct T as [h1|h1 q qs r'|h1 q qs r'|h1 answer L|h1 answer line e L P|h1 answer line n L P|h1 n|h1 n|h1 n obj|h1 obj|h1 obj|h1 obj e Hs|h1 obj e Hs|h1 obj|h1 obj];
        try discriminate Ew; cbn [sh_ref put_ref put_event put_table put_objs new_event] in *; try (split; [exact B|]; intro X; eapply counting_update; [exact E| |exact (C X)]; cbn; tauto).
      * assert (Hn : 0 <= n <= 255).
        { specialize (Sa _ _ _ E). cbn in Sa. destruct Sa as (l1 & t & a & l2 & -> & _). apply Forall_app in F1 as [_ F1]. apply Forall_inv in F1. cbn in F1. apply F1. eapply reference_of; eauto. }
        split; [lia|]. intros _. eapply counting_here; [exact E|exact I].
      * split; [exact B|]. intro X. rewrite X. cbn. eapply counting_here; [exact E|exact I].
      * split; [lia|]. intro X. discriminate X.
    + assert (sh_ref h' = sh_ref h0 /\ ~ counting (Sending j st)) as [-> Nc] by (remember (Some (text, r)) as w eqn:Ew; destruct T; try discriminate Ew; cbn; auto).
      split; auto. intro X. eapply counting_update; [exact E| |exact (C X)]. tauto.
    + assert (sh_ref h' = sh_ref h0) as -> by (destruct T; auto). split; auto. intro X. eapply counting_update; [exact E| |exact (C X)]. intros [].
    + auto.
Qed.

(** ** Waiting for a delivery report *)
Lemma step_expect mode h p ts i j obj : nth_error ts i = Some (Sending j (Expect obj)) -> sys_step mode (mk_system h p ts) [] (mk_system (new_event h) p (update ts i (fun _ => Sending j (Await obj)))).
Proof. intro E. eapply sy_quiet; [exact E|constructor]. Qed.
Lemma step_await mode h p ts i j obj e : nth_error ts i = Some (Sending j (Await obj)) -> sh_event h = Some e -> sys_step mode (mk_system h p ts) [] (mk_system h p (update ts i (fun _ => Sending j (Waiting obj e)))).
Proof. intros E Ee. eapply sy_quiet; [exact E|]. pose proof (ss_await mode j h obj) as T. rewrite Ee in T. exact T. Qed.
Lemma step_timeout mode h p ts i j obj e : nth_error ts i = Some (Sending j (Waiting obj e)) -> ~ In e (sh_set h) -> sys_step mode (mk_system h p ts) [] (mk_system h p (update ts i (fun _ => Sending j (GivenUp obj)))).
Proof. intros E Ee. eapply sy_quiet; [exact E|]. apply ss_timeout; auto. Qed.
Lemma step_wake mode h p ts i j obj e : nth_error ts i = Some (Sending j (Waiting obj e)) -> In e (sh_set h) -> sys_step mode (mk_system h p ts) [] (mk_system h p (update ts i (fun _ => Sending j (Woken obj)))).
Proof. intros E Ee. eapply sy_quiet; [exact E|]. apply ss_wake; auto. Qed.
Lemma step_given mode h p ts i j obj : nth_error ts i = Some (Sending j (GivenUp obj)) -> sys_step mode (mk_system h p ts) [] (mk_system (put_event None h) p (update ts i (fun _ => Sending j (Over (Err (TimeoutException None)))))).
Proof. intro E. eapply sy_quiet; [exact E|constructor]. Qed.
Lemma step_woken mode h p ts i j obj : nth_error ts i = Some (Sending j (Woken obj)) -> sys_step mode (mk_system h p ts) [] (mk_system (put_event None h) p (update ts i (fun _ => Sending j (Over (Ok obj))))).
Proof. intro E. eapply sy_quiet; [exact E|constructor]. Qed.
Lemma step_report mode h p ts i r code st h' st' : nth_error ts i = Some (Reporting r code st) -> report_step r code h st false h' st' ->
  sys_step mode (mk_system h p ts) [] (mk_system h' p (update ts i (fun _ => Reporting r code st'))).
Proof. intros E T. exact (sy_handle mode h p ts i r code st false h' st' E T). Qed.
Definition told_object (n : str) (number text : str) (code : Z) : sent_sms := mk_sent number text (dec_value n) (Some code).
Lemma fresh_new h : fresh h -> ~ In (sh_made h) (sh_set h).
Proof. intros F I. eapply Forall_forall in F; [|exact I]. cbn in F. lia. Qed.
Lemma with_report os o code : nth_error os o <> None -> exists x, nth_error (update os o (fun s => mk_sent (s_number s) (s_text s) (s_reference s) (Some code))) o = Some x /\ s_report x = Some code.
Proof. intro N. rewrite update_nth, Nat.eqb_refl. destruct (nth_error os o); [|congruence]. cbn. eauto. Qed.

(** Two calls wait; the report on the message of the first wakes only the second. *)
Theorem wrong_wakes mode h j1 j2 n1 n2 code : encodable mode j1 (sh_ref h) -> encodable mode j2 (following (dec_value n1)) -> digits n1 -> digits n2 -> dec_value n1 <> dec_value n2 ->
  j_wait j1 = true -> j_wait j2 = true -> fresh h ->
  exists ls s o1 o2 s1 s2, runs mode (mk_system h Idle []) ls s /\
    sy_threads s = [Sending j1 (Over (Err (TimeoutException None))); Sending j2 (Over (Ok o2)); Reporting (dec_value n1) code (Handled (Ok tt))] /\
    nth_error (sh_objs (sy_shared s)) o1 = Some s1 /\ s_number s1 = j_number j1 /\ s_text s1 = j_text j1 /\ s_reference s1 = dec_value n1 /\ s_report s1 = Some code /\
    nth_error (sh_objs (sy_shared s)) o2 = Some s2 /\ s_number s2 = j_number j2 /\ s_text s2 = j_text j2 /\ s_reference s2 = dec_value n2 /\ s_report s2 = None.
Proof.
  intros En1 En2 D1 D2 Ne W1 W2 Fr. destruct (encodable_parts _ _ _ En1) as (q1 & qs1 & E1). destruct (encodable_parts _ _ _ En2) as (q2 & qs2 & E2).
  pose proof (rn_nil mode (mk_system h Idle [])) as R.
  pose proof (rn_step _ _ _ _ _ _ R (sy_call mode h Idle [] j1)) as R1.
  pose proof (rn_step _ _ _ _ _ _ R1 (sy_call mode h Idle [Sending j1 Encode] j2)) as R2. cbn [app] in R2. clear R R1.
  pose proof (rn_step _ _ _ _ _ _ R2 (sy_report mode h Idle [Sending j1 Encode; Sending j2 Encode] (dec_value n1) code)) as R3. cbn [app] in R3. clear R2.
  set (o1 := length (sh_objs h)).
  destruct (runs_send _ _ _ _ _ 0 j1 _ n1 R3 eq_refl E1 D1) as (l1 & R4 & _). cbn [update app] in R4. unfold after_note in R4. rewrite W1 in R4. fold o1 in R4. clear R3.
  pose proof (rn_step _ _ _ _ _ _ R4 (step_expect mode _ Idle [Sending j1 (Expect o1); Sending j2 Encode; Reporting (dec_value n1) code Lookup] 0 j1 o1 eq_refl)) as R5. cbn [update] in R5. clear R4.
  set (h1 := new_event (noted j1 (dec_value n1) h)) in *.
  pose proof (rn_step _ _ _ _ _ _ R5 (step_await mode h1 Idle [Sending j1 (Await o1); Sending j2 Encode; Reporting (dec_value n1) code Lookup] 0 j1 o1 (sh_made h) eq_refl eq_refl)) as R6. cbn [update] in R6. clear R5.
  destruct (runs_send _ _ _ _ _ 1 j2 _ n2 R6 eq_refl E2 D2) as (l2 & R7 & _). cbn [update app] in R7. unfold after_note in R7. rewrite W2 in R7. clear R6.
  set (o2 := length (sh_objs h1)) in *.
  pose proof (rn_step _ _ _ _ _ _ R7 (step_expect mode _ Idle [Sending j1 (Waiting o1 (sh_made h)); Sending j2 (Expect o2); Reporting (dec_value n1) code Lookup] 1 j2 o2 eq_refl)) as R8. cbn [update] in R8. clear R7.
  set (h2 := new_event (noted j2 (dec_value n2) h1)) in *.
  pose proof (rn_step _ _ _ _ _ _ R8 (step_await mode h2 Idle [Sending j1 (Waiting o1 (sh_made h)); Sending j2 (Await o2); Reporting (dec_value n1) code Lookup] 1 j2 o2 (S (sh_made h)) eq_refl eq_refl)) as R9. cbn [update] in R9. clear R8.
  assert (G : zget (sh_table h2) (dec_value n1) = Some o1).
  { change (zget (zset (zset (sh_table h) (dec_value n1) o1) (dec_value n2) o2) (dec_value n1) = Some o1). rewrite !zget_zset. destruct (Z.eqb_spec (dec_value n2) (dec_value n1)); [congruence|]. rewrite Z.eqb_refl. auto. }
  pose proof (rp_lookup (dec_value n1) code h2) as T1. rewrite G in T1.
  pose proof (rn_step _ _ _ _ _ _ R9 (step_report mode _ Idle [Sending j1 (Waiting o1 (sh_made h)); Sending j2 (Waiting o2 (S (sh_made h))); Reporting (dec_value n1) code Lookup] 2 _ _ _ _ _ eq_refl T1)) as R10. cbn [update] in R10. clear R9 T1.
  pose proof (rn_step _ _ _ _ _ _ R10 (step_report mode _ Idle [Sending j1 (Waiting o1 (sh_made h)); Sending j2 (Waiting o2 (S (sh_made h))); Reporting (dec_value n1) code Assign] 2 _ _ _ _ _ eq_refl (rp_assign (dec_value n1) code h2 o1 G))) as R11. cbn [update] in R11. clear R10.
  match type of R11 with runs _ _ _ (mk_system ?x _ _) => set (h3 := x) in * end.
  pose proof (rn_step _ _ _ _ _ _ R11 (step_report mode h3 Idle [Sending j1 (Waiting o1 (sh_made h)); Sending j2 (Waiting o2 (S (sh_made h))); Reporting (dec_value n1) code Test] 2 _ _ _ _ _ eq_refl (rp_test (dec_value n1) code h3))) as R12. cbn [update] in R12. clear R11. change (sh_event h3) with (Some (S (sh_made h))) in R12. cbv iota in R12.
  pose proof (rn_step _ _ _ _ _ _ R12 (step_report mode h3 Idle [Sending j1 (Waiting o1 (sh_made h)); Sending j2 (Waiting o2 (S (sh_made h))); Reporting (dec_value n1) code Fire] 2 _ _ _ _ _ eq_refl (rp_fire (dec_value n1) code h3 _ eq_refl))) as R13. cbn [update] in R13. clear R12.
  set (h4 := fire (S (sh_made h)) h3) in *.
  assert (N1 : ~ In (sh_made h) (sh_set h4)).
  { change (~ In (sh_made h) (S (sh_made h) :: sh_set h)). intros [X|X]; [lia|]. exact (fresh_new h Fr X). }
  pose proof (rn_step _ _ _ _ _ _ R13 (step_timeout mode h4 Idle [Sending j1 (Waiting o1 (sh_made h)); Sending j2 (Waiting o2 (S (sh_made h))); Reporting (dec_value n1) code (Handled (Ok tt))] 0 j1 o1 (sh_made h) eq_refl N1)) as R14. cbn [update] in R14. clear R13.
  pose proof (rn_step _ _ _ _ _ _ R14 (step_wake mode h4 Idle [Sending j1 (GivenUp o1); Sending j2 (Waiting o2 (S (sh_made h))); Reporting (dec_value n1) code (Handled (Ok tt))] 1 j2 o2 (S (sh_made h)) eq_refl (or_introl eq_refl))) as R15. cbn [update] in R15. clear R14.
  pose proof (rn_step _ _ _ _ _ _ R15 (step_given mode h4 Idle [Sending j1 (GivenUp o1); Sending j2 (Woken o2); Reporting (dec_value n1) code (Handled (Ok tt))] 0 j1 o1 eq_refl)) as R16. cbn [update] in R16. clear R15.
  pose proof (rn_step _ _ _ _ _ _ R16 (step_woken mode _ Idle [Sending j1 (Over (Err (TimeoutException None))); Sending j2 (Woken o2); Reporting (dec_value n1) code (Handled (Ok tt))] 1 j2 o2 eq_refl)) as R17. cbn [update] in R17. clear R16.
  set (s1 := mk_sent (j_number j1) (j_text j1) (dec_value n1) None). set (s2 := mk_sent (j_number j2) (j_text j2) (dec_value n2) None).
  assert (Os : sh_objs h2 = (sh_objs h ++ [s1]) ++ [s2]) by reflexivity.
  assert (O1 : nth_error (sh_objs h2) o1 = Some s1) by (rewrite Os, nth_error_app1 by (rewrite app_length; cbn; unfold o1; lia); rewrite nth_error_app2 by (unfold o1; lia); unfold o1; rewrite Nat.sub_diag; auto).
  assert (L2 : o2 = S o1) by (unfold o2, h1, o1; cbn; rewrite app_length; cbn; lia).
  assert (O2 : nth_error (sh_objs h2) o2 = Some s2) by (rewrite Os, nth_error_app2; rewrite L2, app_length; cbn [length]; fold o1; [replace (S o1 - (o1 + 1))%nat with 0%nat by lia; auto|lia]).
  do 2 eexists. exists o1, o2. do 2 eexists. split; [exact R17|]. split; [reflexivity|].
  change (sh_objs (sy_shared (mk_system (put_event None (put_event None h4)) Idle [Sending j1 (Over (Err (TimeoutException None))); Sending j2 (Over (Ok o2)); Reporting (dec_value n1) code (Handled (Ok tt))])))
    with (update (sh_objs h2) o1 (fun s => mk_sent (s_number s) (s_text s) (s_reference s) (Some code))).
  rewrite !update_nth, Nat.eqb_refl, O1, O2. destruct (Nat.eqb_spec o1 o2); [lia|]. cbn. repeat (split; [reflexivity|]). reflexivity.
Qed.
(** The wait is over between the two accesses of the handler: nobody is told. *)
Theorem nobody_told mode h j n code : encodable mode j (sh_ref h) -> digits n -> j_wait j = true -> fresh h -> let r := dec_value n in
  exists ls s, runs mode (mk_system h Idle []) ls s /\
    sy_threads s = [Sending j (Over (Err (TimeoutException None))); Reporting r code (Handled (Err AttributeError))] /\ told_of ls = [].
Proof.
  intros En D W Fr r. destruct (encodable_parts _ _ _ En) as (q & qs & E).
  pose proof (rn_nil mode (mk_system h Idle [])) as R.
  pose proof (rn_step _ _ _ _ _ _ R (sy_call mode h Idle [] j)) as R1.
  pose proof (rn_step _ _ _ _ _ _ R1 (sy_report mode h Idle [Sending j Encode] r code)) as R3. cbn [app] in R3. clear R R1.
  set (o := length (sh_objs h)).
  destruct (runs_send _ _ _ _ _ 0 j _ n R3 eq_refl E D) as (l1 & R4 & _ & _ & To). cbn [update app] in R4. unfold after_note in R4. rewrite W in R4. fold o in R4. clear R3.
  pose proof (rn_step _ _ _ _ _ _ R4 (step_expect mode _ Idle [Sending j (Expect o); Reporting r code Lookup] 0 j o eq_refl)) as R5. cbn [update] in R5. clear R4.
  set (h1 := new_event (noted j (dec_value n) h)) in *.
  pose proof (rn_step _ _ _ _ _ _ R5 (step_await mode h1 Idle [Sending j (Await o); Reporting r code Lookup] 0 j o (sh_made h) eq_refl eq_refl)) as R6. cbn [update] in R6. clear R5.
  assert (G : zget (sh_table h1) r = Some o).
  { change (zget (zset (sh_table h) r o) r = Some o). rewrite zget_zset, Z.eqb_refl. auto. }
  pose proof (rp_lookup r code h1) as T1. rewrite G in T1.
  pose proof (rn_step _ _ _ _ _ _ R6 (step_report mode h1 Idle [Sending j (Waiting o (sh_made h)); Reporting r code Lookup] 1 _ _ _ _ _ eq_refl T1)) as R6a. cbn [update] in R6a. clear R6 T1.
  pose proof (rn_step _ _ _ _ _ _ R6a (step_report mode h1 Idle [Sending j (Waiting o (sh_made h)); Reporting r code Assign] 1 _ _ _ _ _ eq_refl (rp_assign r code h1 o G))) as R7. cbn [update] in R7. clear R6a.
  match type of R7 with runs _ _ _ (mk_system ?x _ _) => set (h1' := x) in * end.
  pose proof (rn_step _ _ _ _ _ _ R7 (step_report mode h1' Idle [Sending j (Waiting o (sh_made h)); Reporting r code Test] 1 _ _ _ _ _ eq_refl (rp_test r code h1'))) as R8. cbn [update] in R8. clear R7. change (sh_event h1') with (Some (sh_made h)) in R8. cbv iota in R8.
  pose proof (rn_step _ _ _ _ _ _ R8 (step_timeout mode h1' Idle [Sending j (Waiting o (sh_made h)); Reporting r code Fire] 0 j o (sh_made h) eq_refl (fresh_new h Fr))) as R9. cbn [update] in R9. clear R8.
  pose proof (rn_step _ _ _ _ _ _ R9 (step_given mode h1' Idle [Sending j (GivenUp o); Reporting r code Fire] 0 j o eq_refl)) as R10. cbn [update] in R10. clear R9.
  set (h2 := put_event None h1') in *.
  pose proof (rn_step _ _ _ _ _ _ R10 (step_report mode h2 Idle [Sending j (Over (Err (TimeoutException None))); Reporting r code Fire] 1 _ _ _ _ _ eq_refl (rp_fire_none r code h2 eq_refl))) as R11. cbn [update] in R11.
  do 2 eexists. split; [exact R11|]. split; [reflexivity|]. rewrite !app_nil_r. exact To.
Qed.
(** Another call stops waiting between the two accesses of a call: it fails although its
    message has been sent. *)
Theorem no_event mode h j1 j2 n1 n2 : encodable mode j1 (sh_ref h) -> encodable mode j2 (following (dec_value n1)) -> digits n1 -> digits n2 -> j_wait j1 = true -> j_wait j2 = true -> fresh h ->
  exists ls s ps, runs mode (mk_system h Idle []) ls s /\ sy_threads s = [Sending j1 (Over (Err (TimeoutException None))); Sending j2 (Over (Err AttributeError))] /\
    message_parts mode j2 (following (dec_value n1)) ps /\ accepted_of 1 ls = ps.
Proof.
  intros En1 En2 D1 D2 W1 W2 Fr. destruct (encodable_parts _ _ _ En1) as (q1 & qs1 & E1). destruct (encodable_parts _ _ _ En2) as (q2 & qs2 & E2).
  pose proof (rn_nil mode (mk_system h Idle [])) as R.
  pose proof (rn_step _ _ _ _ _ _ R (sy_call mode h Idle [] j1)) as R1.
  pose proof (rn_step _ _ _ _ _ _ R1 (sy_call mode h Idle [Sending j1 Encode] j2)) as R3. cbn [app] in R3. clear R R1.
  set (o1 := length (sh_objs h)).
  destruct (runs_send _ _ _ _ _ 0 j1 _ n1 R3 eq_refl E1 D1) as (l1 & R4 & _ & B1 & _). cbn [update app] in R4. unfold after_note in R4. rewrite W1 in R4. fold o1 in R4. clear R3.
  pose proof (rn_step _ _ _ _ _ _ R4 (step_expect mode _ Idle [Sending j1 (Expect o1); Sending j2 Encode] 0 j1 o1 eq_refl)) as R5. cbn [update] in R5. clear R4.
  set (h1 := new_event (noted j1 (dec_value n1) h)) in *.
  pose proof (rn_step _ _ _ _ _ _ R5 (step_await mode h1 Idle [Sending j1 (Await o1); Sending j2 Encode] 0 j1 o1 (sh_made h) eq_refl eq_refl)) as R6. cbn [update] in R6. clear R5.
  pose proof (rn_step _ _ _ _ _ _ R6 (step_timeout mode h1 Idle [Sending j1 (Waiting o1 (sh_made h)); Sending j2 Encode] 0 j1 o1 (sh_made h) eq_refl (fresh_new h Fr))) as R7. cbn [update] in R7. clear R6.
  destruct (runs_send _ _ _ _ _ 1 j2 _ n2 R7 eq_refl E2 D2) as (l2 & R8 & A2 & _ & _). cbn [update app] in R8. unfold after_note in R8. rewrite W2 in R8. clear R7.
  set (o2 := length (sh_objs h1)) in *.
  pose proof (rn_step _ _ _ _ _ _ R8 (step_expect mode _ Idle [Sending j1 (GivenUp o1); Sending j2 (Expect o2)] 1 j2 o2 eq_refl)) as R9. cbn [update] in R9. clear R8.
  pose proof (rn_step _ _ _ _ _ _ R9 (step_given mode _ Idle [Sending j1 (GivenUp o1); Sending j2 (Await o2)] 0 j1 o1 eq_refl)) as R10. cbn [update] in R10. clear R9.
  match type of R10 with runs _ _ _ (mk_system ?x _ _) => set (h3 := x) in * end.
  pose proof (rn_step _ _ _ _ _ _ R10 (sy_quiet mode h3 Idle [Sending j1 (Over (Err (TimeoutException None))); Sending j2 (Await o2)] 1 j2 _ _ _ eq_refl (ss_await mode j2 h3 o2))) as R11. cbn [update] in R11. change (sh_event h3) with (@None nat) in R11. cbv iota in R11.
  do 3 eexists. split; [exact R11|]. split; [reflexivity|]. split; [apply parts_spec; exact E2|]. rewrite !app_nil_r, accepted_app, B1, A2 by auto. reflexivity.
Qed.
(** A report that is handled before the message has been recorded. *)
Theorem too_early mode h j n code : encodable mode j (sh_ref h) -> digits n -> j_wait j = false -> sh_event h = None -> zget (sh_table h) (dec_value n) = None ->
  exists ls s obj o, runs mode (mk_system h Idle []) ls s /\
    sy_threads s = [Sending j (Over (Ok obj)); Reporting (dec_value n) code (Handled (Ok tt))] /\ told_of ls = [(dec_value n, code)] /\
    nth_error (sh_objs (sy_shared s)) obj = Some o /\ s_reference o = dec_value n /\ s_report o = None.
Proof.
  intros En D W Ev Z. destruct (encodable_parts _ _ _ En) as (q & qs & E).
  pose proof (rn_nil mode (mk_system h Idle [])) as R.
  pose proof (rn_step _ _ _ _ _ _ R (sy_call mode h Idle [] j)) as R1.
  pose proof (rn_step _ _ _ _ _ _ R1 (sy_report mode h Idle [Sending j Encode] (dec_value n) code)) as R3. cbn [app] in R3. clear R R1.
  destruct (runs_sent _ _ _ _ _ 0 j _ n R3 eq_refl E) as (l1 & R4 & _ & _ & To). cbn [update app] in R4. clear R3.
  pose proof (rp_lookup (dec_value n) code h) as T1. rewrite Z in T1.
  pose proof (rn_step _ _ _ _ _ _ R4 (step_report mode h Idle [Sending j (Number (sent_as n)); Reporting (dec_value n) code Lookup] 1 _ _ _ _ _ eq_refl T1)) as R5. cbn [update] in R5. clear R4 T1.
  pose proof (rp_test (dec_value n) code h) as T2. rewrite Ev in T2.
  pose proof (rn_step _ _ _ _ _ _ R5 (step_report mode h Idle [Sending j (Number (sent_as n)); Reporting (dec_value n) code Test] 1 _ _ _ _ _ eq_refl T2)) as R6. cbn [update] in R6. clear R5 T2.
  pose proof (rn_step _ _ _ _ _ _ R6 (sy_handle mode h Idle [Sending j (Number (sent_as n)); Reporting (dec_value n) code Tell] 1 _ _ _ true _ _ eq_refl (rp_tell (dec_value n) code h))) as R7. cbn [update] in R7. clear R6.
  pose proof (runs_note mode _ _ h Idle [Sending j (Number (sent_as n)); Reporting (dec_value n) code (Handled (Ok tt))] 0 j n R7 eq_refl D) as R8. cbn [update] in R8. unfold after_note in R8. rewrite W in R8.
  do 4 eexists. split; [exact R8|]. split; [reflexivity|]. rewrite !told_app, To. split; [reflexivity|].
  split; [cbn; rewrite nth_error_app2, Nat.sub_diag by auto; reflexivity|]. split; reflexivity.
Qed.

(** ** A thread on its own does what the methods do *)
Lemma alone_app mode j h1 st1 k1 h2 st2 k2 h3 st3 : alone mode j h1 st1 k1 h2 st2 -> alone mode j h2 st2 k2 h3 st3 -> alone mode j h1 st1 (k1 ++ k2) h3 st3.
Proof. induction 1 as [|h st h' st' asks h2 st2 H _ IH|h st text r h' st' asks h2 st2 H _ IH]; intro K; auto; [eapply al_quiet; eauto|cbn; eapply al_put; eauto]. Qed.
Lemma alone_put mode j h here go command term w x w' : write_with command term true w = Done x w' ->
  (forall r, sender_step mode j h here (Some (command ++ term, r)) h (proceed here (attempt_with command term r) go)) ->
  exists evs v, trace w' = trace w ++ evs /\ dev w' = set_writeWait v (dev w) /\
    alone mode j h here (asked evs) h (match x with Ok ls => go ls | Err e => Over (Err e) end).
Proof.
  intros H St. apply write_done in H as (busy & codes & r & _ & B & NB & O & D & T).
  exists (attempts (command ++ term) (writeWait (dev w)) busy r). eexists. split; auto. split; [exact D|].
  rewrite asked_attempts. clear T D. induction B as [|b c busy codes B _ IH].
  - cbn. pose proof (St r) as S1. rewrite (with_some _ _ _ _ NB O) in S1. apply (al_put _ _ _ _ _ _ _ _ _ _ _ S1). destruct x; constructor.
  - cbn [app map]. pose proof (St b) as S1. rewrite (with_none _ _ _ _ B) in S1. apply (al_put _ _ _ _ _ _ _ _ _ _ _ S1). exact IH.
Qed.
Definition at_result (st : stage) (x : res (option str)) : Prop :=
  match x with Ok r => exists a, st = Number a /\ lineStartingWith (lit "+CMGS:") a = r | Err e => st = Over (Err e) end.
Lemma alone_pdus mode j h : forall pdus result a w x w', lineStartingWith (lit "+CMGS:") a = result -> send_pdus pdus result w = Done x w' ->
  exists evs v st, trace w' = trace w ++ evs /\ dev w' = set_writeWait v (dev w) /\ alone mode j h (continue (map part_of_pdu pdus) a) (asked evs) h st /\ at_result st x.
Proof.
  induction pdus as [|p pdus IH]; intros result a w x w' La H; cbn [send_pdus] in H.
  - injection H as <- <-. exists [], (writeWait (dev w)), (Number a). rewrite app_nil_r, set_wait_same. split; auto. split; auto. split; [constructor|]. exists a. auto.
  - apply bind_done in H as [(ls1 & w1 & H1 & H)|(e & H1 & ->)].
    + apply (alone_put mode j h (Announce (part_of_pdu p) (map part_of_pdu pdus)) (fun _ => Transmit (part_of_pdu p) (map part_of_pdu pdus))) in H1 as (e1 & v1 & T1 & D1 & A1); [|intro r; apply ss_announce].
      apply bind_done in H as [(ls2 & w2 & H2 & H)|(e & H2 & ->)].
      * apply (alone_put mode j h (Transmit (part_of_pdu p) (map part_of_pdu pdus)) (fun ls => continue (map part_of_pdu pdus) ls)) in H2 as (e2 & v2 & T2 & D2 & A2); [|intro r; apply ss_transmit].
        apply (IH _ ls2) in H as (e3 & v3 & st & T3 & D3 & A3 & At); auto. exists (e1 ++ e2 ++ e3), v3, st. rewrite T3, T2, T1, <- !app_assoc, D3, D2, D1. split; auto. split; auto. split; auto.
        rewrite !asked_app. eapply alone_app; [exact A1|]. eapply alone_app; [exact A2|exact A3].
      * apply (alone_put mode j h (Transmit (part_of_pdu p) (map part_of_pdu pdus)) (fun ls => continue (map part_of_pdu pdus) ls)) in H2 as (e2 & v2 & T2 & D2 & A2); [|intro r; apply ss_transmit].
        exists (e1 ++ e2), v2, (Over (Err e)). rewrite T2, T1, <- app_assoc, D2, D1. split; auto. split; auto. split; [|reflexivity]. rewrite asked_app. eapply alone_app; [exact A1|exact A2].
    + apply (alone_put mode j h (Announce (part_of_pdu p) (map part_of_pdu pdus)) (fun _ => Transmit (part_of_pdu p) (map part_of_pdu pdus))) in H1 as (e1 & v1 & T1 & D1 & A1); [|intro r; apply ss_announce].
      exists e1, v1, (Over (Err e)). split; auto. split; auto. split; [exact A1|reflexivity].
Qed.
Lemma alone_transmit j h m sc x w : sh_ref h = smsRef m -> transmit m (j_number j) (j_text j) (j_flash j) (start m sc) = Done x w ->
  exists v st, dev w = set_writeWait v m /\ alone (smsTextMode m) j h Encode (asked (trace w)) h st /\ at_result st x.
Proof.
  intros Rf H. unfold transmit in H. pose proof (ss_encode (smsTextMode m) j h) as Se. unfold parts_of in Se. rewrite Rf in Se. destruct (smsTextMode m) eqn:Tm.
  - cbn [continue] in Se. unfold send_text in H. remember ((lit "AT+CMGS=""" ++ j_number j ++ lit """", j_text j)) as p eqn:Ep in Se.
    replace (lit "AT+CMGS=""" ++ j_number j ++ lit """") with (fst p) in H by (subst p; reflexivity). replace (j_text j) with (snd p) in H by (subst p; reflexivity). clear Ep.
    apply bind_done in H as [(ls1 & w1 & H1 & H)|(e & H1 & ->)].
    + apply (alone_put true j h (Announce p []) (fun _ => Transmit p [])) in H1 as (e1 & v1 & T1 & D1 & A1); [|intro r; apply ss_announce].
      apply bind_done in H as [(ls2 & w2 & H2 & H)|(e & H2 & ->)].
      * apply (alone_put true j h (Transmit p []) (fun ls => continue [] ls)) in H2 as (e2 & v2 & T2 & D2 & A2); [|intro r; apply ss_transmit].
        injection H as <- <-. exists v2, (Number ls2). rewrite D2, D1, T2, T1. split; auto. split; [|exists ls2; auto]. eapply al_quiet; [exact Se|]. cbn [start trace app]. rewrite asked_app. eapply alone_app; [exact A1|exact A2].
      * apply (alone_put true j h (Transmit p []) (fun ls => continue [] ls)) in H2 as (e2 & v2 & T2 & D2 & A2); [|intro r; apply ss_transmit].
        exists v2, (Over (Err e)). rewrite D2, D1, T2, T1. split; auto. split; [|reflexivity]. eapply al_quiet; [exact Se|]. cbn [start trace app]. rewrite asked_app. eapply alone_app; [exact A1|exact A2].
    + apply (alone_put true j h (Announce p []) (fun _ => Transmit p [])) in H1 as (e1 & v1 & T1 & D1 & A1); [|intro r; apply ss_announce].
      exists v1, (Over (Err e)). rewrite D1, T1. split; auto. split; [|reflexivity]. eapply al_quiet; [exact Se|exact A1].
  - unfold mbind, lift in H. destruct (encodeSmsSubmitPdu (j_number j) (j_text j) (smsRef m) VNone None true false (j_flash j)) as [pdus|e] eqn:E; cbn [bind] in Se.
    + apply (alone_pdus false j h pdus None []) in H as (evs & v & st & T & D & A & At); auto. exists v, st. rewrite T, D. split; auto. split; auto. eapply al_quiet; [exact Se|exact A].
    + injection H as <- <-. exists (writeWait m), (Over (Err e)). cbn [start dev trace]. rewrite set_wait_same. split; auto. split; [|reflexivity]. eapply al_quiet; [exact Se|constructor].
Qed.
Lemma sees_wait v m h : sees m h -> sees (set_writeWait v m) h. Proof. exact (fun H => H). Qed.
(** C79: sendSms without other threads *)
Theorem sender_is_method j m sc h x w : sees m h -> sendSms (j_number j) (j_text j) (j_flash j) (j_wait j) (start m sc) = Done x w ->
  exists h' st, alone (smsTextMode m) j h Encode (asked (trace w)) h' st /\ sees (dev w) h' /\
    st = match x with Ok obj => if j_wait j then Await obj else Over (Ok obj) | Err e => Over (Err e) end.
Proof.
  intros Se H. rewrite sendSms_eq in H. cbn [start dev] in H. change (mk_world m sc []) with (start m sc) in H.
  destruct (transmit m (j_number j) (j_text j) (j_flash j) (start m sc)) as [[[line|]|e] w1|w1] eqn:Tr; try discriminate H;
    (destruct (alone_transmit j h m sc _ w1 (proj1 Se) Tr) as (v & st & D & A & At); cbn [at_result] in At).
  - destruct At as (a & -> & La). destruct (py_int 10 (skipn 7 line)) as [n|e] eqn:P; injection H as <- <-; cbn [trace dev].
    + rewrite D. set (h1 := put_ref (n + 1) h). set (h2 := put_ref (following n) h).
      set (h3 := put_table (zset (sh_table h2) n (length (sh_objs h2))) (put_objs (sh_objs h2 ++ [mk_sent (j_number j) (j_text j) n None]) h2)).
      assert (A2 : alone (smsTextMode m) j h (Number a) [] h2 (Record_ n)).
      { eapply al_quiet; [eapply ss_number; eauto|]. eapply al_quiet; [apply ss_check|]. cbn [sh_ref put_ref]. unfold h2. rewrite following_eq. destruct (255 <? n + 1); [|constructor].
        eapply al_quiet; [apply ss_reset|]. constructor. }
      assert (A3 := al_quiet _ _ _ _ _ _ [] _ _ (ss_record (smsTextMode m) j h2 n) (al_refl _ _ _ _)). cbv zeta in A3. fold h3 in A3.
      assert (Ol : length (sh_objs h2) = length (sentObjs m)) by (destruct Se as (_ & X & _); cbn; rewrite X; auto).
      cbn [sentObjs set_writeWait]. destruct Se as (S1 & S2 & S3 & S4 & S5 & S6). unfold SendProofs.recorded, SendProofs.next_ref. rewrite <- following_eq. destruct (j_wait j).
      * exists (new_event h3), (Await (length (sentObjs m))). rewrite <- Ol. split.
        -- rewrite <- (app_nil_r (asked (trace w1))). eapply alone_app; [exact A|]. rewrite <- (app_nil_l (@nil (str * option reply))). eapply alone_app; [exact A2|]. rewrite <- (app_nil_l (@nil (str * option reply))). eapply alone_app; [exact A3|].
           eapply al_quiet; [apply ss_expect|constructor].
        -- split; [|reflexivity]. split; [reflexivity|]. cbn [sh_objs sh_table sh_event sh_set sh_made new_event h3 put_table put_objs h2 put_ref]. cbn. rewrite S2, S3. split; auto. split; auto.
           split; [|split].
           ++ exists (sh_made h). split; auto. split; [discriminate|]. intro I. exfalso. eapply Forall_forall in S5; [|exact I]. cbn in S5. lia.
           ++ eapply Forall_impl; [|exact S5]. cbn. intros; lia.
           ++ intros e X. injection X as <-. lia.
      * exists h3, (Over (Ok (length (sentObjs m)))). rewrite <- Ol. split.
        -- rewrite <- (app_nil_r (asked (trace w1))). eapply alone_app; [exact A|]. rewrite <- (app_nil_l (@nil (str * option reply))). eapply alone_app; [exact A2|exact A3].
        -- split; [|reflexivity]. split; [reflexivity|]. cbn. rewrite S2, S3. auto.
    + exists h, (Over (Err e)). rewrite D. split; [|auto]. rewrite <- (app_nil_r (asked (trace w1))). eapply alone_app; [exact A|]. eapply al_quiet; [eapply ss_unreadable; eauto|constructor].
  - destruct At as (a & -> & La). injection H as <- <-. exists h, (Over (Err cmgs_missing)). rewrite D. split; [|auto]. rewrite <- (app_nil_r (asked (trace w1))). eapply alone_app; [exact A|]. eapply al_quiet; [eapply ss_missing; eauto|constructor].
  - subst st. injection H as <- <-. exists h, (Over (Err e)). rewrite D. auto.
Qed.
Theorem wait_is_method j m sc h obj x w : sees m h -> reportEvent m <> None -> sendSms_wait (start m sc) = Done x w ->
  exists h' st, alone (smsTextMode m) j h (Await obj) [] h' st /\ sees (dev w) h' /\ st = match x with Ok _ => Over (Ok obj) | Err e => Over (Err e) end.
Proof.
  intros (S1 & S2 & S3 & S4 & S5 & S6) Ne H. unfold sendSms_wait, mbind, get, modify in H. cbn [start dev script trace] in H.
  destruct (reportEvent m) as [b|] eqn:Ev; [|congruence]. destruct S4 as (e & Ee & Hb).
  assert (A1 : alone (smsTextMode m) j h (Await obj) [] h (Waiting obj e)) by (eapply al_quiet; [apply ss_await|]; rewrite Ee; constructor).
  exists (put_event None h). destruct b; injection H as <- <-; eexists.
  - split; [|split; [|reflexivity]].
    + apply (alone_app _ _ _ _ [] _ _ [] _ _ A1). eapply al_quiet; [apply ss_wake; apply Hb; auto|]. eapply al_quiet; [apply ss_woken|constructor].
    + cbn. unfold sees. cbn. repeat (split; [assumption || reflexivity|]). intros e' X. discriminate X.
  - split; [|split; [|reflexivity]].
    + apply (alone_app _ _ _ _ [] _ _ [] _ _ A1). eapply al_quiet; [apply ss_timeout; intro I; apply Hb in I; discriminate I|]. eapply al_quiet; [apply ss_given_up|constructor].
    + cbn. unfold sees. cbn. repeat (split; [assumption || reflexivity|]). intros e' X. discriminate X.
Qed.

(** C80: a call that waits returns only after some report has been handled *)
Definition some_handled (ts : list thread) : Prop := exists r code, In (Reporting r code (Handled (Ok tt))) ts.
Definition awake (t : thread) : Prop := match t with Sending j (Woken _) => True | Sending j (Over (Ok _)) => j_wait j = true | _ => False end.
Lemma in_update {A} (l : list A) i f x : In x (update l i f) -> In x l \/ exists y, nth_error l i = Some y /\ x = f y.
Proof. revert i. induction l as [|a l IH]; intros [|i] H; cbn in *; auto; destruct H as [H|H]; subst; eauto. destruct (IH _ H) as [?|?]; auto. Qed.
Lemma update_in {A} (l : list A) i f x y : In x l -> nth_error l i = Some y -> x <> y -> In x (update l i f).
Proof. revert i. induction l as [|a l IH]; intros [|i] H E N; cbn in *; auto; [injection E as ->; destruct H as [H|H]; [congruence|auto]|destruct H as [H|H]; [auto|right; eauto]]. Qed.
Lemma here_update {A} (l : list A) i f y : nth_error l i = Some y -> In (f y) (update l i f).
Proof. revert i. induction l as [|a l IH]; intros [|i] E; cbn in *; try discriminate; [injection E as ->; auto|right; eauto]. Qed.
Lemma handled_update ts i t t' : some_handled ts -> nth_error ts i = Some t -> (forall r code, t <> Reporting r code (Handled (Ok tt))) -> some_handled (update ts i (fun _ => t')).
Proof. intros (r & code & I) E N. exists r, code. eapply update_in; eauto. Qed.
Theorem waited mode h ls s : runs mode (mk_system h Idle []) ls s -> sh_set h = [] ->
  (sh_set (sy_shared s) <> [] -> some_handled (sy_threads s)) /\ (forall t, In t (sy_threads s) -> awake t -> some_handled (sy_threads s)).
Proof.
  intros R H0. induction R as [|ls s1 l s2 R [IH1 IH2] T].
  - cbn. split; [congruence|tauto].
  - destruct T as [h0 p ts j|h0 p ts r code|h0 p ts i j st h' st' E T|h0 p ts i j st text r h' st' p' a E T Tk|h0 p ts i r code st told h' st' E T|h0 p ts c r p' a Nc Tk]; cbn [sy_threads sy_shared sy_port] in *.
    + assert (G : some_handled ts -> some_handled (ts ++ [Sending j Encode])) by (intros (r & c & I); exists r, c; apply in_or_app; auto).
      split; [auto|]. intros t I. apply in_app_or in I as [I|[<-|[]]]; [eauto|cbn; tauto].
    + assert (G : some_handled ts -> some_handled (ts ++ [Reporting r code Lookup])) by (intros (r' & c & I); exists r', c; apply in_or_app; auto).
      split; [auto|]. intros t I. apply in_app_or in I as [I|[<-|[]]]; [eauto|cbn; tauto].
    + assert (G : forall t', some_handled ts -> some_handled (update ts i (fun _ => t'))) by (intros t' X; eapply handled_update; eauto; discriminate).
      assert (J : sh_set h' = sh_set h0) by (destruct T; reflexivity). rewrite J. split; [auto|]. intros t I A. apply in_update in I as [I|(y & _ & ->)]; [eauto|].
      apply G. destruct T as [h1|h1 q qs r'|h1 q qs r'|h1 answer L|h1 answer line e L P|h1 answer line n L P|h1 n|h1 n|h1 n obj|h1 obj|h1 obj|h1 obj e Hs|h1 obj e Hs|h1 obj|h1 obj]; cbn in A; try tauto.
      * unfold continue in A. destruct (parts_of mode j (sh_ref h1)) as [[|q qs]|e]; cbn in A; tauto.
      * destruct (attempt_with _ _ _) as [[?|?]|]; cbn in A; tauto.
      * destruct (attempt_with _ _ _) as [[?|?]|]; cbn in A; try tauto. destruct qs; cbn in A; tauto.
      * destruct (255 <? _); cbn in A; tauto.
      * destruct (j_wait j) eqn:W; cbn in A; [tauto|congruence].
      * destruct (sh_event h1); cbn in A; tauto.
      * apply IH1. intro X. rewrite X in Hs. destruct Hs.
      * eapply IH2; [eapply nth_error_In; exact E|exact Logic.I].
    + assert (G : forall t', some_handled ts -> some_handled (update ts i (fun _ => t'))) by (intros t' X; eapply handled_update; eauto; discriminate).
      assert (J : sh_set h' = sh_set h0) by (inversion T; reflexivity). rewrite J. split; [auto|]. intros t I A. apply in_update in I as [I|(y & _ & ->)]; [eauto|].
      apply G. inversion T; subst; cbn in A; try tauto;
        (destruct (attempt_with _ _ _) as [[?|?]|]; cbn in A; try tauto). destruct ps; cbn in A; tauto.
    + assert (N : forall r' c', Reporting r code st <> Reporting r' c' (Handled (Ok tt))) by (intros r' c' X; injection X as -> -> ->; inversion T).
      assert (G : forall t', some_handled ts -> some_handled (update ts i (fun _ => t'))) by (intros t' X; eapply handled_update; eauto).
      split.
      * intro X. assert (D : sh_set h' = sh_set h0 \/ st' = Handled (Ok tt)) by (destruct T; auto).
        destruct D as [D| ->]; [apply G, IH1; congruence|]. exists r, code. exact (here_update ts i (fun _ => Reporting r code (Handled (Ok tt))) _ E).
      * intros t I A. apply in_update in I as [I|(y & _ & ->)]; [eauto|cbn in A; tauto].
    + auto.
Qed.
Theorem waited_for mode h ls s i j obj : runs mode (mk_system h Idle []) ls s -> sh_set h = [] -> nth_error (sy_threads s) i = Some (Sending j (Over (Ok obj))) -> j_wait j = true ->
  exists k r code, nth_error (sy_threads s) k = Some (Reporting r code (Handled (Ok tt))).
Proof.
  intros R H0 E W. destruct (waited _ _ _ _ R H0) as [_ X]. destruct (X _ (nth_error_In _ _ E) W) as (r & code & I). apply In_nth_error in I as (k & K). eauto.
Qed.
(** one message in text mode *)
Lemma text_run h num text fl n : digits n -> let c := lit "AT+CMGS=""" ++ num ++ lit """" in exists h',
  runs true (mk_system h Idle []) [LPut (Some 0%nat) (c ++ [13]) (Lines [lit "> "]) None; LPut (Some 0%nat) (text ++ [26]) (Lines [lit "+CMGS: " ++ n; lit "OK"]) (Some (c, text))]
    (mk_system h' Idle [Sending (mk_job num text fl false) (Over (Ok (length (sh_objs h))))]).
Proof.
  intros D c. set (j := mk_job num text fl false). assert (A : announcement (fst (c, text))) by (exists (34 :: num ++ [34]); reflexivity).
  pose proof (rn_nil true (mk_system h Idle [])) as R.
  pose proof (rn_step _ _ _ _ _ _ R (sy_call true h Idle [] j)) as R1.
  pose proof (rn_step _ _ _ _ _ _ R1 (step_encode true h Idle [Sending j Encode] 0 j (c, text) [] eq_refl eq_refl)) as R2.
  pose proof (rn_step _ _ _ _ _ _ R2 (step_announce true h [Sending j (Announce (c, text) [])] 0 j (c, text) [] eq_refl A)) as R3.
  pose proof (rn_step _ _ _ _ _ _ R3 (step_text true h c [Sending j (Transmit (c, text) [])] 0 j (c, text) [] n eq_refl)) as R4.
  pose proof (runs_note _ _ _ _ _ [Sending j (Number (sent_as n))] 0 j n R4 eq_refl D) as R5. eexists. exact R5.
Qed.
Lemma numbers_of ls n : match lineStartingWith (lit "+CMGS:") ls with Some l => match py_int 10 (skipn 7 l) with Ok k => 0 <= k <= 255 | Err _ => True end | None => True end ->
  reference_in ls n -> 0 <= n <= 255.
Proof.
  intros H (line & F & N). pose proof (first_cmgs_iff ls) as X. destruct (lineStartingWith (lit "+CMGS:") ls) as [l|].
  - rewrite (first_cmgs_unique _ _ _ F X) in N. apply py_int_iff in N. rewrite N in H. exact H.
  - destruct F as (a & b & -> & St & _). rewrite Forall_forall in X. destruct (X line); auto. apply in_or_app. cbn. auto.
Qed.
(** ** A report handled while a call waits *)
Lemma nth_update {A} (l : list A) i k f : nth_error (update l i f) k = if Nat.eqb i k then option_map f (nth_error l k) else nth_error l k.
Proof. revert i k. induction l as [|a l IH]; intros [|i] [|k]; cbn; auto; [destruct (Nat.eqb i k); auto]. Qed.
Lemma nth_more {A} (l : list A) x k y : nth_error l k = Some y -> nth_error (l ++ [x]) k = Some y.
Proof. intro E. rewrite nth_error_app1; auto. apply nth_error_Some. congruence. Qed.
(** the thread has been woken or will be *)
Definition rising (s : system) (i : nat) (j : job) (obj e : nat) : Prop :=
  nth_error (sy_threads s) i = Some (Sending j (Waiting obj e)) /\ In e (sh_set (sy_shared s)) \/
  nth_error (sy_threads s) i = Some (Sending j (Woken obj)) \/ nth_error (sy_threads s) i = Some (Sending j (Over (Ok obj))).
Lemma rising_step mode s l s' i j obj e : sys_step mode s l s' -> rising s i j obj e -> rising s' i j obj e.
Proof.
  intro T. destruct T as [h0 p ts j0|h0 p ts r code|h0 p ts k j0 st h' st' E T|h0 p ts k j0 st text r h' st' p' a E T Tk|h0 p ts k r code st told h' st' E T|h0 p ts c r p' a Nc Tk]; unfold rising; cbn [sy_threads sy_shared].
  - intros [[H I]|[H|H]]; [left; split; auto|right; left|right; right]; apply nth_more; auto.
  - intros [[H I]|[H|H]]; [left; split; auto|right; left|right; right]; apply nth_more; auto.
  - assert (J : sh_set h' = sh_set h0) by (destruct T; reflexivity). rewrite J, nth_update. destruct (Nat.eqb_spec k i) as [->|N]; auto. rewrite E. cbn [option_map].
    intros [[H I]|[H|H]]; injection H as -> ->; inversion T; subst; auto. contradiction.
  - assert (J : sh_set h' = sh_set h0) by (inversion T; reflexivity). rewrite J, nth_update. destruct (Nat.eqb_spec k i) as [->|N]; auto. rewrite E. cbn [option_map].
    intros [[H I]|[H|H]]; injection H as -> ->; inversion T.
  - assert (J : forall x, In x (sh_set h0) -> In x (sh_set h')) by (destruct T; cbn; auto). rewrite nth_update. destruct (Nat.eqb_spec k i) as [->|N]; [rewrite E; intros [[H I]|[H|H]]; discriminate H|].
    intros [[H I]|[H|H]]; auto.
  - auto.
Qed.
Lemma rising_runs mode s ls s' i j obj e : runs mode s ls s' -> rising s i j obj e -> rising s' i j obj e.
Proof. intro R. induction R as [|ls s1 l s2 R IH T]; auto. intro H. eapply rising_step; eauto. Qed.
Theorem in_time mode s0 l s1 ls s2 i j obj e k r code x : sh_event (sy_shared s0) = Some e -> nth_error (sy_threads s0) i = Some (Sending j (Waiting obj e)) ->
  nth_error (sy_threads s0) k = Some (Reporting r code Fire) -> sys_step mode s0 l s1 -> nth_error (sy_threads s1) k <> Some (Reporting r code Fire) ->
  runs mode s1 ls s2 -> nth_error (sy_threads s2) i = Some (Sending j (Over x)) -> x = Ok obj.
Proof.
  intros Ev Hi Hk T Nk R Hx. assert (S1 : rising s1 i j obj e).
  { destruct T as [h0 p ts j0|h0 p ts r0 c0|h0 p ts k0 j0 st h' st' E T|h0 p ts k0 j0 st text r0 h' st' p' a E T Tk|h0 p ts k0 r0 c0 st told h' st' E T|h0 p ts c r0 p' a Nc Tk]; cbn [sy_threads sy_shared] in *.
    - exfalso. apply Nk. apply nth_more. auto.
    - exfalso. apply Nk. apply nth_more. auto.
    - exfalso. apply Nk. rewrite nth_update. destruct (Nat.eqb_spec k0 k) as [->|N]; auto. congruence.
    - exfalso. apply Nk. rewrite nth_update. destruct (Nat.eqb_spec k0 k) as [->|N]; auto. congruence.
    - rewrite nth_update in Nk. destruct (Nat.eqb_spec k0 k) as [->|N]; [|congruence]. rewrite Hk in E. injection E as <- <- <-. left. cbn [sy_threads sy_shared].
      rewrite nth_update. destruct (Nat.eqb_spec k i) as [->|N]; [congruence|]. split; auto. inversion T; subst; [|congruence]. left. congruence.
    - congruence. }
  apply (rising_runs _ _ _ _ _ _ _ _ R) in S1 as [[H _]|[H|H]]; rewrite Hx in H; congruence.
Qed.
