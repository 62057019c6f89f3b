(** Invariants of the transition system of SerialModel.v. *)
From Verif Require Import Base RegexModel RegexProofs SerialModel SerialSpec SerialProofs.

Ltac break_step H :=
  repeat match type of H with
  | context [match ?x with _ => _ end] => let E := fresh "E" in destruct x eqn:E; try discriminate H
  end;
  try discriminate H; injection H as <- <-.
Ltac step_cases H :=
  match type of H with act _ ?a = Some _ => destruct a as [ri|wi wn] end;
  cbn [act] in H; unfold read_step, write_step in H; cbv zeta in H; break_step H.

Lemma upd_same {A} (f : nat -> A) n x : upd f n x n = x.
Proof. unfold upd. rewrite Nat.eqb_refl. reflexivity. Qed.
Lemma upd_other {A} (f : nat -> A) n m x : m <> n -> upd f n x m = f m.
Proof. unfold upd. destruct (Nat.eqb_spec m n); congruence. Qed.

Lemma run_split s tr1 tr2 s' : run s (tr1 ++ tr2) s' -> exists m, run s tr1 m /\ run m tr2 s'.
Proof.
  intro R. remember (tr1 ++ tr2) as tr eqn:E. revert tr1 tr2 E.
  induction R as [s|s tr s' a l s'' R IH H]; intros tr1 tr2 E.
  - symmetry in E. apply app_eq_nil in E as [-> ->]. exists s. split; constructor.
  - destruct tr2 as [|x tr2] using rev_ind.
    + rewrite app_nil_r in E. subst tr1. exists s''. split; [econstructor; eauto|constructor].
    + clear IHtr2. rewrite app_assoc in E. apply app_inj_tail in E as [-> <-].
      destruct (IH tr1 tr2 eq_refl) as (m & R1 & R2). exists m. split; auto. econstructor; eauto.
Qed.
Lemma run_nil_inv s s' : run s [] s' -> s = s'.
Proof. intro R. remember [] as tr eqn:E. destruct R as [s|s tr s' a l s'' R H]; auto. destruct tr; discriminate. Qed.
Lemma run_one s a l s' : run s [(a, l)] s' -> act s a = Some (s', l).
Proof.
  intro R. remember [(a, l)] as tr0 eqn:E. destruct R as [s|s tr m b k s'' R H]; [discriminate|].
  apply (app_inj_tail tr []) in E as [-> [= -> ->]]. apply run_nil_inv in R as <-. auto.
Qed.
Lemma run_det s tr s1 : run s tr s1 -> forall s2, run s tr s2 -> s1 = s2.
Proof.
  induction 1 as [s|s tr s' a l s'' R IH H]; intros s2 R2.
  - apply run_nil_inv; auto.
  - apply run_split in R2 as (m & R3 & R4). apply IH in R3 as <-. apply run_one in R4. congruence.
Qed.
Lemma run_cons s a l s' tr s'' : act s a = Some (s', l) -> run s' tr s'' -> run s ((a, l) :: tr) s''.
Proof.
  intros H R. induction R as [s'|s' tr m b k s'' R IH Hm].
  - apply (run_snoc s [] s a l s'); [constructor|auto].
  - apply (run_snoc s ((a, l) :: tr) m b k s''); auto.
Qed.
Lemma labels_app a b : labels (a ++ b) = labels a ++ labels b.
Proof. apply map_app. Qed.
Lemma labels_split tr a l b : labels tr = a ++ l :: b ->
  exists tra x trb, tr = tra ++ (x, l) :: trb /\ labels tra = a /\ labels trb = b.
Proof.
  revert a. induction tr as [|[x k] tr IH]; intros [|m a] E; cbn in E; try discriminate.
  - injection E as -> <-. exists [], x, tr. auto.
  - injection E as -> E. destruct (IH _ E) as (tra & y & trb & -> & <- & <-). exists ((x, m) :: tra), y, trb. auto.
Qed.

(** ** Conservation of lines and notifications *)
Definition inflight (r : rpc) : list str :=
  match r with
  | RIsSet l _ | RResp l _ | RApp l _ _ | RNote l | RDead _ (Some l) => [l]
  | _ => []
  end.
Lemma lines_of_snoc tr l : lines_of (tr ++ [l]) = lines_of tr ++ match l with LLine x _ => [x] | _ => [] end.
Proof. unfold lines_of. rewrite flat_map_app. cbn. rewrite app_nil_r. reflexivity. Qed.
Lemma routed_of_snoc tr l : routed_of (tr ++ [l]) = routed_of tr ++ match l with LAppend x _ => [x] | LNotify x => [x] | _ => [] end.
Proof. unfold routed_of. rewrite flat_map_app. cbn. rewrite app_nil_r. reflexivity. Qed.
Lemma notified_of_snoc tr l : notified_of (tr ++ [l]) = notified_of tr ++ match l with LNotify x => [x] | _ => [] end.
Proof. unfold notified_of. rewrite flat_map_app. cbn. rewrite app_nil_r. reflexivity. Qed.
Lemma callbacks_of_snoc tr l : callbacks_of (tr ++ [l]) = callbacks_of tr ++ match l with LCallback x => [x] | _ => [] end.
Proof. unfold callbacks_of. rewrite flat_map_app. cbn. rewrite app_nil_r. reflexivity. Qed.
Lemma handed_of_snoc tr l : handed_of (tr ++ [l]) = handed_of tr ++ match l with LLine x c => [(x, c)] | _ => [] end.
Proof. unfold handed_of. rewrite flat_map_app. cbn. rewrite app_nil_r. reflexivity. Qed.
Lemma chars_of_snoc tr l : chars_of (tr ++ [l]) = chars_of tr ++ match l with LChar c => [c] | _ => [] end.
Proof. unfold chars_of. rewrite flat_map_app. cbn. rewrite app_nil_r. reflexivity. Qed.

Lemma lines_routed tr s : run s_init tr s -> lines_of (labels tr) = routed_of (labels tr) ++ inflight (reader s).
Proof.
  intro R. remember s_init as s0 eqn:E0. induction R as [s|s tr s' a l s'' R IH H]; subst; [reflexivity|].
  specialize (IH eq_refl). rewrite labels_app. cbn [labels map snd]. fold (labels tr).
  rewrite lines_of_snoc, routed_of_snoc, IH. clear IH R.
  step_cases H; cbn [set_reader set_writer reader inflight]; rewrite ?app_nil_r; try reflexivity;
    rewrite ?E; cbn [inflight]; rewrite ?app_nil_r; reflexivity.
Qed.
Lemma notified_kept tr s : run s_init tr s -> List.concat (callbacks_of (labels tr)) ++ notif s = notified_of (labels tr).
Proof.
  intro R. remember s_init as s0 eqn:E0. induction R as [s|s tr s' a l s'' R IH H]; subst; [reflexivity|].
  specialize (IH eq_refl). rewrite labels_app. cbn [labels map snd]. fold (labels tr).
  rewrite callbacks_of_snoc, notified_of_snoc, <- IH, concat_app. clear IH R.
  step_cases H; cbn [set_reader set_writer notif List.concat]; rewrite ?app_nil_r, <- ?app_assoc; reflexivity.
Qed.

(** ** Framing in any schedule *)
Definition rleft (r : rpc) (left : str) : Prop :=
  match r with
  | RIdle b => left = b
  | RExp1 b | RExp2 b | RExp3 b _ => left = b /\ ~ suffix_of crlf b
  | RHave l true => left = l ++ crlf /\ l <> []
  | RHave l false => left = l /\ ~ suffix_of crlf l
  | RDead _ _ => True
  | _ => left = []
  end.
Definition rclean (r : rpc) : Prop :=
  match r with
  | RIdle b | RExp1 b | RExp2 b | RExp3 b _ => ~ occurs crlf b
  | RHave l _ => ~ occurs crlf l
  | _ => True
  end.
Lemma no_occurs_nil : ~ occurs crlf [].
Proof. intros (a & b & E). destruct a; discriminate. Qed.
Lemma occurs_snoc b c : occurs crlf (b ++ [c]) -> ~ suffix_of crlf (b ++ [c]) -> occurs crlf b.
Proof.
  intros (x & y & E) N. destruct y as [|d y] using rev_ind.
  - exfalso. apply N. exists x. rewrite app_nil_r in E. auto.
  - clear IHy. exists x, y. rewrite !app_assoc in E. apply app_inj_tail in E as [-> _]. rewrite app_assoc. reflexivity.
Qed.
Lemma occurs_app p a b : occurs p a -> occurs p (a ++ b).
Proof. intros (x & y & ->). exists x, (y ++ b). rewrite <- !app_assoc. reflexivity. Qed.
Lemma crlf_line b c l : ~ occurs crlf b -> b ++ [c] = l ++ crlf -> ~ occurs crlf l.
Proof.
  intros N E O. apply N. change crlf with ([13] ++ [10]) in E. rewrite app_assoc in E. apply app_inj_tail in E as [-> _].
  apply occurs_app, O.
Qed.
Lemma chars_framed tr s : run s_init tr s ->
  rclean (reader s) /\
  exists segs outs left, chars_of (labels tr) = List.concat segs ++ left /\ Forall2 handed_over segs outs /\
    handed_of (labels tr) = somes outs /\ Forall (fun x => ~ occurs crlf (fst x)) (somes outs) /\ rleft (reader s) left.
Proof.
  intro R. remember s_init as s0 eqn:E0. induction R as [s|s tr s' a l s'' R IH H]; subst.
  { split; [apply no_occurs_nil|]. exists [], [], []. repeat split; auto; constructor. }
  destruct (IH eq_refl) as (CL & segs & outs & left & C & F & HO & FC & L). clear IH R. rewrite labels_app. cbn [labels map snd]. fold (labels tr).
  assert (same : forall r, rclean r -> rleft r left -> match l with LChar _ | LLine _ _ => False | _ => True end -> rclean r /\
     exists segs outs left0, chars_of (labels tr ++ [l]) = List.concat segs ++ left0 /\ Forall2 handed_over segs outs /\
      handed_of (labels tr ++ [l]) = somes outs /\ Forall (fun x => ~ occurs crlf (fst x)) (somes outs) /\ rleft r left0).
  { intros r Cr Lr Q. split; auto. exists segs, outs, left. rewrite chars_of_snoc, handed_of_snoc.
    destruct l; try contradiction; rewrite !app_nil_r; auto. }
  destruct a as [ri|wi wn].
  2:{ assert (reader s'' = reader s' /\ match l with LChar _ | LLine _ _ => False | _ => True end) as [Er Q].
      { cbn [act] in H. unfold write_step in H. cbv zeta in H. break_step H; auto. }
      rewrite Er. apply same; auto. }
  cbn [act] in H. unfold read_step in H. cbv zeta in H. destruct (reader s') eqn:ER.
  - destruct (in_char ri) as [c|]; [|injection H as <- <-; rewrite ER; apply same; auto].
    cbn in L, CL. subst left. destruct (ends_with (buf ++ [c]) RX_EOL_SEQ) eqn:EC.
    + apply ends_with_spec in EC as [x Ex]. rewrite Ex in H. change RX_EOL_SEQ with crlf in *.
      rewrite app_length in H. replace (length x + length crlf - length crlf)%nat with (length x) in H by lia.
      rewrite (proj1 (firstn_app_all x crlf)) in H. pose proof (crlf_line _ _ _ CL Ex) as NX.
      destruct x as [|d x]; injection H as <- <-; cbn [set_reader reader rclean].
      * split; [apply no_occurs_nil|]. exists (segs ++ [crlf]), (outs ++ [None]), []. rewrite chars_of_snoc, handed_of_snoc, C, concat_app.
        cbn [List.concat]. rewrite !app_nil_r, <- app_assoc, Ex. split; [reflexivity|].
        split; [apply Forall2_app; auto; constructor; constructor|].
        assert (somes (outs ++ [None]) = somes outs) as -> by (clear; induction outs as [|[|] ? IH]; cbn; rewrite ?IH; auto).
        repeat split; auto.
      * split; auto. exists segs, outs, ((d :: x) ++ crlf). rewrite chars_of_snoc, handed_of_snoc, C, <- app_assoc, Ex, app_nil_r.
        repeat split; auto. discriminate.
    + injection H as <- <-. apply ends_with_false in EC. cbn [set_reader reader rclean rleft]. split.
      { intro O. apply CL. eapply occurs_snoc; eauto. }
      exists segs, outs, (buf ++ [c]). rewrite chars_of_snoc, handed_of_snoc, C, <- app_assoc, app_nil_r. repeat split; auto.
  - destruct L as [-> NS]. destruct (expect s'); injection H as <- <-; apply same; auto; split; auto.
  - destruct L as [-> NS]. destruct (expect s'); injection H as <- <-; apply same; auto; try split; auto; exact I.
  - destruct L as [-> NS]. destruct (expect s'); [destruct str_eqb|]; injection H as <- <-; apply same; auto; split; auto.
  - assert (rclean (reader s'') /\ rleft (reader s'') [] /\ l = LLine line chk) as (CS & LS & ->)
      by (destruct (evt s'); injection H as <- <-; cbn; auto).
    split; auto. exists (segs ++ [left]), (outs ++ [Some (line, chk)]), [].
    rewrite chars_of_snoc, handed_of_snoc, C, HO, concat_app. cbn [List.concat]. rewrite !app_nil_r. split; auto.
    assert (somes (outs ++ [Some (line, chk)]) = somes outs ++ [(line, chk)]) as -> by (clear; induction outs as [|[|] ? IH]; cbn; rewrite ?IH; auto).
    split. { apply Forall2_app; auto. constructor; [|constructor]. destruct chk; cbn in L; destruct L as [-> N]; constructor; auto. }
    split; auto. split; auto. apply Forall_app; split; auto.
  - destruct (evt s') as [e|]; [destruct (is_set s' e)|]; injection H as <- <-; apply same; auto; exact I.
  - destruct (resp s') as [e|]; injection H as <- <-; apply same; auto; exact I.
  - injection H as <- <-. apply same; auto.
  - destruct (negb chk || is_term line); injection H as <- <-; apply same; auto; try exact I; try apply no_occurs_nil.
  - destruct (evt s') as [e|]; injection H as <- <-; apply same; auto; try exact I; try apply no_occurs_nil.
  - injection H as <- <-. apply same; auto.
  - destruct (in_empty ri); injection H as <- <-; apply same; auto; try apply no_occurs_nil.
  - discriminate.
Qed.
