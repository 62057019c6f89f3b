(** Proofs about what the terminal shows. *)
From Verif Require Import Base TrieModel TrieSpec TermModel TermSpec TermProofs.

Lemma receives_app s a b : receives s (a ++ b) = receives (receives s a) b.
Proof. unfold receives. apply fold_left_app. Qed.
Lemma put_app (p r : str) c : put_at (length p) c (p ++ r) = p ++ c :: skipn 1 r.
Proof. induction p as [|x p IH]; cbn; [destruct r; auto|]. rewrite IH. auto. Qed.
Lemma receive_visible p r c : 32 <= c <= 126 -> receive (mk_screen (p ++ r) (length p) Plain) c = mk_screen (p ++ [c] ++ skipn 1 r) (S (length p)) Plain.
Proof.
  intro V. unfold receive. cbn [state]. destruct (Z.eqb_spec c 13); [lia|]. destruct (Z.eqb_spec c 10); [lia|]. destruct (Z.eqb_spec c 27); [lia|].
  cbn [row col]. rewrite put_app. auto.
Qed.
Lemma receives_visible text : visible text -> forall p r, receives (mk_screen (p ++ r) (length p) Plain) text = mk_screen (p ++ text ++ skipn (length text) r) (length p + length text) Plain.
Proof.
  induction 1 as [|c text V _ IH]; intros p r; [cbn; rewrite Nat.add_0_r; auto|].
  unfold receives. cbn [fold_left]. rewrite (receive_visible p r c V). change (fold_left receive text ?s) with (receives s text).
  replace (p ++ [c] ++ skipn 1 r) with ((p ++ [c]) ++ skipn 1 r) by (rewrite <- app_assoc; auto). replace (S (length p)) with (length (p ++ [c])) by (rewrite app_length; cbn; lia).
  rewrite IH. f_equal.
  - rewrite <- app_assoc. cbn [app length]. destruct r; cbn [skipn]; auto. rewrite skipn_nil. auto.
  - rewrite app_length. cbn. lia.
Qed.
Lemma receives_left n : forall r k, receives (mk_screen r k Plain) (times CURSOR_LEFT n) = mk_screen r (k - Z.to_nat n) Plain.
Proof.
  unfold times. induction (Z.to_nat n) as [|m IH]; intros r k; cbn [repeat List.concat]; [cbn; rewrite Nat.sub_0_r; auto|].
  rewrite receives_app. change (receives (mk_screen r k Plain) CURSOR_LEFT) with (mk_screen r (pred k) Plain). rewrite IH. f_equal. lia.
Qed.
Lemma times_spaces n : times [32] n = repeat 32 (Z.to_nat n).
Proof. unfold times. induction (Z.to_nat n) as [|m IH]; cbn; auto. rewrite IH. auto. Qed.
Lemma spaces_visible n : visible (repeat 32 n).
Proof. induction n; cbn; constructor; auto. lia. Qed.
Lemma spaces_blank n : blanks (repeat 32 n).
Proof. induction n; cbn; constructor; auto. Qed.
Lemma blanks_skip n s : blanks s -> blanks (skipn n s).
Proof. intro B. revert n. induction B as [|c s H B IH]; intros [|n]; cbn; auto; constructor; auto. Qed.
Lemma skip_skip {A} a b (l : list A) : skipn a (skipn b l) = skipn (b + a) l.
Proof. revert l. induction b as [|b IH]; intros l; cbn; auto. destruct l; [rewrite !skipn_nil; auto|apply IH]. Qed.
Lemma refresh_shows P t s k : displays (current_prompt t) P -> state s = Plain -> visible (buf t) -> 0 <= cur t <= zlen (buf t) ->
  (k <= 0 \/ zlen (buf t) <= k \/ cur t = zlen (buf t)) -> blanks (skipn (length P + Z.to_nat (Z.max (zlen (buf t)) k)) (row s)) ->
  shows P t (receives s (refresh_text t k)).
Proof.
  intros D St V C K B. unfold refresh_text. destruct s as [r cl st]. cbn in St, B. subst st.
  rewrite receives_app. change (receives (mk_screen r cl Plain) [13]) with (mk_screen r 0 Plain). rewrite receives_app, D, receives_app, receives_visible by auto.
  rewrite times_spaces. set (n := Z.to_nat (k - zlen (buf t))).
  rewrite receives_app. replace (P ++ buf t ++ skipn (length (buf t)) (skipn (length P) r)) with ((P ++ buf t) ++ skipn (length (buf t)) (skipn (length P) r)) by (rewrite app_assoc; auto).
  replace (length P + length (buf t))%nat with (length (P ++ buf t)) by apply app_length. rewrite receives_visible by apply spaces_visible. rewrite receives_left.
  rewrite !skip_skip. rewrite repeat_length.
  exists (repeat 32 n ++ skipn (length P + length (buf t) + n) r). cbn [row col state]. split; [rewrite <- !app_assoc, Nat.add_assoc; auto|]. split.
  - apply Forall_app. split; [apply spaces_blank|]. replace (length P + length (buf t) + n)%nat with (length P + Z.to_nat (Z.max (zlen (buf t)) k))%nat; auto. unfold n, zlen. lia.
  - split; auto. rewrite app_length. unfold n, zlen in *. destruct (0 <? k) eqn:E; [apply Z.ltb_lt in E|apply Z.ltb_ge in E]; lia.
Qed.
Lemma sees_all_app s a b : sees_all s (a ++ b) = sees_all (sees_all s a) b.
Proof. unfold sees_all. apply fold_left_app. Qed.
(** the part of the row that a refresh must clear *)
Lemma shown_rest P t s n : shows_or_blank P t s -> (length (buf t) <= n)%nat -> blanks (skipn (length P + n) (row s)).
Proof.
  intros [(rest & R & B & _)|(_ & _ & B & _)] L; [|apply blanks_skip; auto]. rewrite R. rewrite !skipn_app, (skipn_all2 P), (skipn_all2 (buf t)) by lia. apply blanks_skip. auto.
Qed.
Lemma shown_plain P t s : shows_or_blank P t s -> state s = Plain.
Proof. intros [(r & _ & _ & _ & H)|(_ & _ & _ & _ & H)]; auto. Qed.
Lemma same_prompt t t' : same_but_line t t' -> current_prompt t' = current_prompt t.
Proof. intros (_ & _ & T & _ & P & S). unfold current_prompt. rewrite T, P, S. auto. Qed.
Lemma edits_visible k p q : edits k p q -> (forall c, k = [c] -> typable c -> 32 <= c <= 126) -> visible (fst p) -> visible (snd p) -> visible (fst q) /\ visible (snd q).
Proof.
  intros E K V1 V2. unfold visible in *.
  assert (V3 : match k with [c] => typable c -> 32 <= c <= 126 | _ => True end) by (destruct k as [|c [|]]; auto).
  destruct E; cbn [fst snd] in *; rewrite ?Forall_app in *; repeat split; try tauto;
  repeat match goal with H : Forall _ (_ :: _) |- _ => inversion H; clear H; subst | H : _ /\ _ |- _ => destruct H end; repeat constructor; auto; try lia; specialize (V3 H); lia.
Qed.
Lemma edit_screen e limit k w a b P s : editing_key k -> (forall c, k = [c] -> typable c -> 32 <= c <= 126) -> at_cursor (tm w) a b -> visible (buf (tm w)) ->
  displays (current_prompt (tm w)) P -> shows_or_blank P (tm w) s ->
  exists a' b' w' os, press e limit k w = (Ok tt, w') /\ at_cursor (tm w') a' b' /\ same_but_line (tm w) (tm w') /\ outs w' = outs w ++ os /\
    visible (buf (tm w')) /\ shows_or_blank P (tm w') (sees_all s os).
Proof.
  intros K Vk At V D Sh. destruct (key_run e limit k w a b K At) as (a' & b' & w' & R & Ed & At' & Sm & _ & Os & Id).
  assert (V' : visible (buf (tm w'))).
  { destruct At as [B _], At' as [B' _]. rewrite B' in *. rewrite B in V. unfold visible in *. rewrite Forall_app in *. destruct V. destruct (edits_visible _ _ _ Ed Vk); auto. }
  exists a', b', w'. eexists. split; [exact R|]. split; auto. split; auto. split; [exact Os|]. split; auto.
  assert (D' : displays (current_prompt (tm w')) P) by (rewrite (same_prompt _ _ Sm); auto).
  destruct (idle k a b) eqn:Idl; [cbn; rewrite Id; auto|]. clear Id. unfold key_text.
  assert (Cu : 0 <= cur (tm w') <= zlen (buf (tm w'))). { destruct At' as [B' C']. unfold zlen. rewrite B', C', app_length. lia. }
  pose proof (shown_plain _ _ _ Sh) as Pl. destruct At as [B C], At' as [B' C'].
  assert (Rf : forall n, (length (buf (tm w)) <= Z.to_nat (Z.max (zlen (buf (tm w'))) n))%nat -> (n <= 0 \/ zlen (buf (tm w')) <= n) -> shows_or_blank P (tm w') (sees_all s [OScreen (refresh_text (tm w') n)])).
  { intros n N1 N2. left. cbn. apply refresh_shows; auto; [tauto|]. eapply shown_rest; eauto. }
  assert (Nb : a <> [] \/ b <> [] -> shows P (tm w) s). { intro N. destruct Sh as [Sh|(Bf & _)]; auto. rewrite B in Bf. apply app_eq_nil in Bf as [-> ->]. destruct N; congruence. }
  unfold sees_all, idle in *.
  inversion Ed as [c x y Ty|c x y|y|c x y|x|c x y|y|c x y|x|x y|x y]; subst; try discriminate Idl; try (destruct a'; discriminate Idl).
  - assert (Nk : forall l, hd 0 l <> c -> str_eqb [c] l = false). { intros l N. destruct (str_eqb [c] l) eqn:Q; auto. apply str_eqb_eq in Q. subst l. destruct N. reflexivity. }
    unfold typable in Ty. rewrite !Nk by (cbn; lia). cbn [orb]. apply Rf; [|lia]. unfold zlen. rewrite B, B', !app_length. lia.
  - change (str_eqb BACKSPACE_CHARACTER CURSOR_LEFT) with false. change (str_eqb BACKSPACE_CHARACTER CURSOR_RIGHT) with false. change (str_eqb BACKSPACE_CHARACTER BACKSPACE_CHARACTER) with true. cbn [orb].
    apply Rf; unfold zlen; rewrite ?B, ?B', ?app_length; cbn; lia.
  - change (str_eqb DELETE CURSOR_LEFT) with false. change (str_eqb DELETE CURSOR_RIGHT) with false. change (str_eqb DELETE DELETE) with true. rewrite orb_true_r.
    apply Rf; unfold zlen; rewrite ?B, ?B', ?app_length; cbn; lia.
  - change (str_eqb CURSOR_LEFT CURSOR_LEFT) with true. cbn iota. destruct Nb as (rest & R1 & R2 & R3 & R4); [left; intro X; symmetry in X; apply app_cons_not_nil in X; auto|].
    left. exists rest. destruct s as [r cl st]. cbn in R1, R3, R4. subst st. cbn. split; [rewrite R1, B, B', <- !app_assoc; auto|]. split; auto. split; auto. rewrite R3, C, C', app_length. cbn. lia.
  - change (str_eqb CURSOR_RIGHT CURSOR_LEFT) with false. change (str_eqb CURSOR_RIGHT CURSOR_RIGHT) with true. cbn iota. destruct Nb as (rest & R1 & R2 & R3 & R4); [right; discriminate|].
    left. exists rest. destruct s as [r cl st]. cbn in R1, R3, R4. subst st. cbn. split; [rewrite R1, B, B', <- !app_assoc; auto|]. split; auto. split; auto. rewrite R3, C, C', app_length. cbn. lia.
  - change (str_eqb HOME CURSOR_LEFT) with false. change (str_eqb HOME CURSOR_RIGHT) with false. change (str_eqb HOME BACKSPACE_CHARACTER || str_eqb HOME DELETE) with false. change (str_eqb HOME HOME || str_eqb HOME END_) with true. cbn iota.
    apply Rf; unfold zlen; rewrite ?B, ?B', ?app_length; cbn; rewrite ?app_length; lia.
  - change (str_eqb END_ CURSOR_LEFT) with false. change (str_eqb END_ CURSOR_RIGHT) with false. change (str_eqb END_ BACKSPACE_CHARACTER || str_eqb END_ DELETE) with false. change (str_eqb END_ HOME || str_eqb END_ END_) with true. cbn iota.
    apply Rf; unfold zlen; rewrite ?B, ?B', ?app_length; cbn; rewrite ?app_length; lia.
Qed.
Lemma displays_plain p : visible p -> displays p p.
Proof. intros V r. exact (receives_visible p V [] r). Qed.
Lemma displays_colour p : visible p -> displays (COLOR_GREEN ++ p ++ lit (String (ascii_of_nat 27) "[0m")) p.
Proof.
  intros V r. rewrite !receives_app. change (receives (mk_screen r 0 Plain) COLOR_GREEN) with (mk_screen r 0 Plain). rewrite (displays_plain p V r). reflexivity.
Qed.
Lemma recall_screen e limit k w P s : inside (tm w) -> k = CURSOR_UP \/ k = CURSOR_DOWN -> Forall visible (hist (tm w)) -> visible (buf (tm w)) ->
  displays (current_prompt (tm w)) P -> shows_or_blank P (tm w) s ->
  exists w' os, press e limit k w = (Ok tt, w') /\ outs w' = outs w ++ os /\ hist (tm w') = hist (tm w) /\ alive (tm w') = alive (tm w) /\ current_prompt (tm w') = current_prompt (tm w) /\
    visible (buf (tm w')) /\ shows_or_blank P (tm w') (sees_all s os).
Proof.
  intros I K Vh V D Sh. destruct (recall_run e limit k w I K) as (w' & R & _ & [[_ ->]|[(h1 & l & h2 & H & Hp & [B C] & _ & E1 & E2 & E3 & E4 & E5) Os]]).
  - exists w, []. rewrite app_nil_r. auto 7.
  - exists w'. eexists. split; [exact R|]. split; [exact Os|]. split; auto. split; auto. rewrite app_nil_r in B.
    assert (Cp : current_prompt (tm w') = current_prompt (tm w)) by (unfold current_prompt; rewrite E2, E4, E5; auto). split; auto.
    assert (V' : visible (buf (tm w'))). { rewrite H in Vh. apply Forall_app in Vh as [_ Vh]. inversion Vh; subst. auto. }
    split; auto. left. cbn. apply refresh_shows; auto.
    + rewrite Cp. auto.
    + eapply shown_plain; eauto.
    + rewrite C, <- B. unfold zlen. lia.
    + right. right. rewrite C, <- B. auto.
    + eapply shown_rest; eauto. unfold zlen. lia.
Qed.
Theorem loop_screen e limit keys : Forall line_key keys -> forall w P s, inside (tm w) -> alive (tm w) = true -> Forall visible (hist (tm w)) -> visible (buf (tm w)) ->
  displays (current_prompt (tm w)) P -> shows_or_blank P (tm w) s ->
  exists w' os, input_loop e limit keys w = (Ok tt, w') /\ outs w' = outs w ++ os /\ shows_or_blank P (tm w') (sees_all s os).
Proof.
  induction 1 as [|k keys K _ IH]; intros w P s I Al Vh V D Sh; cbn [input_loop].
  - exists w, []. rewrite app_nil_r. auto.
  - unfold tbind at 1, tget. rewrite Al. unfold tbind.
    assert (S : exists w' os, press e limit k w = (Ok tt, w') /\ outs w' = outs w ++ os /\ hist (tm w') = hist (tm w) /\ alive (tm w') = alive (tm w) /\ current_prompt (tm w') = current_prompt (tm w) /\
      visible (buf (tm w')) /\ shows_or_blank P (tm w') (sees_all s os)).
    { assert (Ed : editing_key k -> (forall c, k = [c] -> typable c -> 32 <= c <= 126) -> exists w' os, press e limit k w = (Ok tt, w') /\ outs w' = outs w ++ os /\ hist (tm w') = hist (tm w) /\ alive (tm w') = alive (tm w) /\
        current_prompt (tm w') = current_prompt (tm w) /\ visible (buf (tm w')) /\ shows_or_blank P (tm w') (sees_all s os)).
      { intros Ke Kt. pose proof I as ((a & b & At) & _). destruct (edit_screen e limit k w a b P s Ke Kt At V D Sh) as (a' & b' & w' & os & R & _ & Sm & Os & V' & Sh').
        exists w', os. rewrite (same_prompt _ _ Sm). destruct Sm as (-> & _ & _ & -> & _). auto 8. }
      destruct K as [(c & -> & Kc)|K].
      - apply Ed; [left; exists c; split; auto; unfold typable; lia|]. intros c' E _. injection E as <-. auto.
      - cbn in K. destruct K as [<-|[<-|[<-|[<-|[<-|[<-|K]]]]]]; try (apply Ed; [right; cbn; tauto|intros c' E; try discriminate E; injection E as <-; unfold typable; lia]).
        apply recall_screen; auto. destruct K as [<-|[<-|[]]]; auto. }
    destruct S as (w1 & os1 & R1 & O1 & H1 & A1 & P1 & V1 & Sh1). rewrite R1.
    assert (I1 : inside (tm w1)) by (pose proof (press_inside e limit k w I) as X; rewrite R1 in X; auto).
    destruct (IH w1 P (sees_all s os1)) as (w2 & os2 & R2 & O2 & Sh2); auto; [congruence|rewrite H1; auto|rewrite P1; auto|].
    exists w2, (os1 ++ os2). split; auto. split; [rewrite O2, O1, app_assoc; auto|]. rewrite sees_all_app. auto.
Qed.
