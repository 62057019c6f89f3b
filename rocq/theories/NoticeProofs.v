(** Proofs about the lines the terminal prints. *)
From Verif Require TrieProofs.
From Verif Require Import Base TrieModel TrieSpec TermModel TermSpec TermProofs ScreenProofs NoticeModel NoticeSpec.

Lemma watches_app d a b : watches d (a ++ b) = watches (watches d a) b.
Proof. unfold watches. apply fold_left_app. Qed.
Lemma watches_now d text : now (watches d text) = receives (now d) text.
Proof. revert d. induction text as [|c text IH]; intro d; auto. unfold watches, receives in *. cbn [fold_left]. rewrite IH. f_equal. unfold gets. destruct (state (now d)); auto. Qed.
Lemma watches_above d text : ~ In 10 text -> above (watches d text) = above d.
Proof.
  revert d. induction text as [|c text IH]; intros d N; auto. unfold watches in *. cbn [fold_left]. rewrite IH by (intro; apply N; right; auto).
  unfold gets. destruct (state (now d)); auto. destruct (Z.eqb_spec c 10) as [->|]; auto. destruct N. left. auto.
Qed.
Lemma watches_no d text : ~ In 10 text -> watches d text = mk_display (above d) (receives (now d) text).
Proof. intro N. pose proof (watches_above d text N) as A. pose proof (watches_now d text) as B. destruct (watches d text). cbn in *. congruence. Qed.
Lemma visible_no text : visible text -> ~ In 10 text.
Proof. intros V I. unfold visible in V. rewrite Forall_forall in V. specialize (V _ I). lia. Qed.
Lemma times_no s n : ~ In 10 s -> ~ In 10 (times s n).
Proof. intros N I. unfold times in I. apply in_concat in I as (x & I & J). apply repeat_spec in I as ->. auto. Qed.
Lemma refresh_no t k : ~ In 10 (current_prompt t) -> visible (buf t) -> ~ In 10 (refresh_text t k).
Proof.
  intros N V I. unfold refresh_text in I. fold (current_prompt t) in I. rewrite !in_app_iff in I. destruct I as [I|[I|[I|[I|I]]]].
  - destruct I as [I|[]]; discriminate.
  - auto.
  - eapply visible_no; eauto.
  - revert I. apply times_no. intros [X|[]]; discriminate.
  - revert I. apply times_no. intros [X|[X|[X|[]]]]; discriminate.
Qed.
(** a prompt is at least as long as it shows *)
Lemma receive_col s c : (col (receive s c) <= S (col s))%nat.
Proof. unfold receive. destruct (state s); cbn; repeat (destruct (_ =? _); cbn; [lia|]); try lia. destruct ((64 <=? c) && (c <=? 126)); cbn; [|lia]. destruct (c =? 68); [lia|]. destruct (c =? 67); lia. Qed.
Lemma receives_col text : forall s, (col (receives s text) <= col s + length text)%nat.
Proof. induction text as [|c text IH]; intro s; cbn; [lia|]. unfold receives in *. specialize (IH (receive s c)). pose proof (receive_col s c). lia. Qed.
Lemma displays_length p P : displays p P -> (length P <= length p)%nat.
Proof. intro D. specialize (D []). pose proof (receives_col p (mk_screen [] 0 Plain)) as H. rewrite D in H. cbn in H. lia. Qed.

(** the text of several lines *)
Lemma joined text : forall lines d tail, lines <> [] -> Forall visible lines -> text = join_lines lines -> state (now d) = Plain -> col (now d) = 0%nat -> blanks (row (now d)) ->
  (forall r k, receives (mk_screen r k Plain) tail = mk_screen r k Plain) -> ~ In 10 tail ->
  exists rows, watches d (text ++ tail ++ [10]) = mk_display (above d ++ rows) (mk_screen [] 0 Plain) /\ rows_show lines rows.
Proof.
  intros lines. revert text. induction lines as [|l lines IH]; intros text d tail Ne F -> St Co Bl Ht Nt; [congruence|].
  inversion F as [|? ? V F']; subst. destruct d as [ab [r cl st]]. cbn in St, Co, Bl. subst st cl.
  assert (L : watches (mk_display ab (mk_screen r 0 Plain)) l = mk_display ab (mk_screen (l ++ skipn (length l) r) (length l) Plain)).
  { rewrite (watches_no _ _ (visible_no _ V)). cbn [above now]. f_equal. exact (receives_visible l V [] r). }
  assert (B : exists rest, l ++ skipn (length l) r = l ++ rest /\ blanks rest) by (exists (skipn (length l) r); split; auto; apply blanks_skip; exact Bl).
  destruct lines as [|l2 lines].
  - exists [l ++ skipn (length l) r]. cbn [join_lines]. rewrite watches_app, L, watches_app, (watches_no _ tail Nt). cbn [above now]. rewrite Ht. split; [reflexivity|]. constructor; auto.
  - destruct (IH (join_lines (l2 :: lines)) (mk_display (ab ++ [l ++ skipn (length l) r]) (mk_screen [] 0 Plain)) tail) as (rows & W & R); auto; try discriminate; try constructor.
    exists ((l ++ skipn (length l) r) :: rows). split; [|constructor; auto].
    change (join_lines (l :: l2 :: lines)) with (l ++ [10] ++ join_lines (l2 :: lines)). rewrite <- !app_assoc. rewrite watches_app, L. rewrite watches_app.
    change (watches (mk_display ab (mk_screen (l ++ skipn (length l) r) (length l) Plain)) [10]) with (mk_display (ab ++ [l ++ skipn (length l) r]) (mk_screen [] 0 Plain)).
    rewrite W. cbn [above]. rewrite <- app_assoc. reflexivity.
Qed.
Definition RESET : str := lit (String (ascii_of_nat 27) "[0m").
Lemma reset_same r k : receives (mk_screen r k Plain) RESET = mk_screen r k Plain.
Proof. reflexivity. Qed.
Lemma printed e lines d c : c = COLOR_RED \/ c = COLOR_CYAN -> lines <> [] -> Forall visible lines -> state (now d) = Plain -> col (now d) = 0%nat -> blanks (row (now d)) ->
  exists rows, watches d (color e c (join_lines lines) ++ [10]) = mk_display (above d ++ rows) (mk_screen [] 0 Plain) /\ rows_show lines rows.
Proof.
  intros Hc Ne F St Co Bl. unfold color. destruct (useColor e).
  - rewrite <- !app_assoc. rewrite watches_app. assert (E : watches d c = d).
    { destruct d as [ab [r cl st]]. cbn in St. subst st. destruct Hc as [-> | ->]; reflexivity. }
    rewrite E. apply joined with (tail := RESET); auto. vm_compute. intuition discriminate.
  - apply joined with (tail := []); auto.
Qed.
(** the row is cleared *)
Lemma removed P t d : displays (current_prompt t) P -> shows_or_blank P t (now d) ->
  let n := Z.to_nat (zlen (current_prompt t) + zlen (buf t)) in
  exists r, watches d ([13] ++ repeat 32 n ++ [13]) = mk_display (above d) (mk_screen r 0 Plain) /\ blanks r.
Proof.
  intros D Sh n. pose proof (shown_plain _ _ _ Sh) as St. pose proof (displays_length _ _ D) as L.
  assert (N : (length P + length (buf t) <= n)%nat) by (unfold n, zlen; lia).
  exists (repeat 32 n ++ skipn n (row (now d))). split.
  - rewrite watches_no by (rewrite !in_app_iff; intros [[X|[]]|[X|[X|[]]]]; try discriminate; apply repeat_spec in X; discriminate). f_equal.
    destruct d as [ab [r cl st]]. cbn [now state row] in St |- *. subst st. rewrite !receives_app. change (receives (mk_screen r cl Plain) [13]) with (mk_screen r 0 Plain).
    pose proof (receives_visible (repeat 32 n) (spaces_visible n) [] r) as R. cbn [app length] in R. rewrite R, repeat_length. reflexivity.
  - apply Forall_app. split; [apply spaces_blank|]. pose proof (shown_rest P t (now d) (n - length P) Sh) as B. replace (length P + (n - length P))%nat with n in B by lia. apply B. lia.
Qed.

Definition after_notice (e : env) (lines : list str) (t : term) : term :=
  if typing t then set_prompt (color e COLOR_CYAN (hd [] lines)) t else t.
Lemma notice_run e lines w : lines <> [] -> exists l, let t' := after_notice e lines (tm w) in
  handleModemNotification e lines w = (Ok tt, mk_tworld t' (answers w) (outs w ++
    [OScreen ([13] ++ repeat 32 (Z.to_nat (zlen (current_prompt (tm w)) + zlen (buf (tm w)))) ++ [13]);
     OScreen (color e (if str_eqb l (lit "ERROR") then COLOR_RED else COLOR_CYAN) (join_lines lines) ++ [10]); OScreen (refresh_text t' 0)])).
Proof.
  intro Ne. assert (Nr : rev lines <> []) by (intro X; apply (f_equal (@rev _)) in X; rewrite rev_involutive in X; auto).
  destruct (rev lines) as [|l rl] eqn:R; [congruence|]. exists l. cbn zeta. unfold handleModemNotification, after_notice. rewrite R.
  unfold removePrompt, tbind, tget, emit. cbn [tm answers outs]. unfold current_prompt. rewrite times_spaces.
  destruct (typing (tm w)) eqn:T.
  - destruct lines as [|l0 lines]; [congruence|]. cbn [hd]. unfold tput. cbn [tm answers outs]. rewrite refresh_run. cbn [tm answers outs]. rewrite <- !app_assoc. reflexivity.
  - unfold tret. rewrite refresh_run. cbn [tm answers outs]. rewrite <- !app_assoc. reflexivity.
Qed.
Lemma after_same e lines t : same_but_prompt t (after_notice e lines t).
Proof. unfold after_notice, same_but_prompt. destruct (typing t) eqn:T; cbn; auto 8. Qed.
Lemma after_current e lines t : current_prompt (after_notice e lines t) = current_prompt t.
Proof. unfold after_notice, current_prompt. destruct (typing t) eqn:T; cbn; rewrite T; auto. Qed.
Theorem notice_shown e lines w P d : lines <> [] -> Forall visible lines -> inside (tm w) -> visible (buf (tm w)) -> displays (current_prompt (tm w)) P -> ~ In 10 (current_prompt (tm w)) ->
  shows_or_blank P (tm w) (now d) ->
  exists w' os rows, handleModemNotification e lines w = (Ok tt, w') /\ outs w' = outs w ++ os /\ Forall on_screen os /\ answers w' = answers w /\ same_but_prompt (tm w) (tm w') /\
    above (watches_all d os) = above d ++ rows /\ rows_show lines rows /\ shows P (tm w') (now (watches_all d os)) /\
    prompt (tm w') = (if typing (tm w) then color e COLOR_CYAN (hd [] lines) else prompt (tm w)).
Proof.
  intros Ne F In1 V D N Sh. destruct (notice_run e lines w Ne) as (l & R). cbn zeta in R. set (t' := after_notice e lines (tm w)) in *.
  destruct (removed P (tm w) d D Sh) as (r & W1 & Bl). cbn zeta in W1. set (c := if str_eqb l (lit "ERROR") then COLOR_RED else COLOR_CYAN) in *.
  destruct (printed e lines (mk_display (above d) (mk_screen r 0 Plain)) c) as (rows & W2 & Rs); auto. { unfold c. destruct (str_eqb _ _); auto. }
  cbn [above] in W2.
  eexists. eexists. exists rows. split; [exact R|]. split; [reflexivity|]. split; [repeat constructor; eexists; reflexivity|]. split; [reflexivity|]. cbn [tm]. split; [apply after_same|].
  unfold watches_all. cbn [fold_left]. rewrite W1, W2.
  assert (Sm : same_but_prompt (tm w) t') by apply after_same. destruct Sm as (S1 & S2 & _).
  assert (Cp : current_prompt t' = current_prompt (tm w)) by apply after_current.
  rewrite watches_no by (apply refresh_no; [rewrite Cp; auto|rewrite S1; auto]). cbn [above now]. split; auto. split; auto. split.
  - apply refresh_shows; auto; try rewrite Cp; try rewrite S1; try rewrite S2; auto.
    + apply inside_iff in In1. tauto.
    + left. lia.
    + cbn [row]. rewrite skipn_nil. constructor.
  - unfold t', after_notice. destruct (typing (tm w)); reflexivity.
Qed.
(** ** keys and notifications *)
Lemma line_key_screen e limit k w P s : line_key k -> inside (tm w) -> Forall visible (hist (tm w)) -> visible (buf (tm w)) -> displays (current_prompt (tm w)) P -> shows_or_blank P (tm w) s ->
  exists w' os, press e limit k w = (Ok tt, w') /\ outs w' = outs w ++ os /\ hist (tm w') = hist (tm w) /\ alive (tm w') = alive (tm w) /\ current_prompt (tm w') = current_prompt (tm w) /\
    visible (buf (tm w')) /\ shows_or_blank P (tm w') (sees_all s os).
Proof.
  intros K I Vh V D Sh.
  assert (Ed : editing_key k -> (forall c, k = [c] -> typable c -> 32 <= c <= 126) -> exists w' os, press e limit k w = (Ok tt, w') /\ outs w' = outs w ++ os /\ hist (tm w') = hist (tm w) /\ alive (tm w') = alive (tm w) /\
    current_prompt (tm w') = current_prompt (tm w) /\ visible (buf (tm w')) /\ shows_or_blank P (tm w') (sees_all s os)).
  { intros Ke Kt. pose proof I as ((a & b & At) & _). destruct (edit_screen e limit k w a b P s Ke Kt At V D Sh) as (a' & b' & w' & os & R & _ & Sm & Os & V' & Sh').
    exists w', os. rewrite (same_prompt _ _ Sm). destruct Sm as (-> & _ & _ & -> & _). auto 8. }
  destruct K as [(c & -> & Kc)|K].
  - apply Ed; [left; exists c; split; auto; unfold typable; lia|]. intros c' E _. injection E as <-. auto.
  - cbn in K. destruct K as [<-|[<-|[<-|[<-|[<-|[<-|K]]]]]]; try (apply Ed; [right; cbn; tauto|intros c' E; try discriminate E; injection E as <-; unfold typable; lia]).
    apply recall_screen; auto. destruct K as [<-|[<-|[]]]; auto.
Qed.
Lemma seen_watched d os : now (watches_all d os) = sees_all (now d) os.
Proof. revert d. induction os as [|o os IH]; intro d; auto. unfold watches_all, sees_all in *. cbn [fold_left]. rewrite IH. f_equal. destruct o; auto. apply watches_now. Qed.
Theorem mixed_screen e limit hs : Forall ordinary hs -> forall w P s, inside (tm w) -> Forall visible (hist (tm w)) -> visible (buf (tm w)) ->
  displays (current_prompt (tm w)) P -> ~ In 10 (current_prompt (tm w)) -> shows_or_blank P (tm w) s ->
  exists w' os, happen e limit hs w = (Ok tt, w') /\ outs w' = outs w ++ os /\ shows_or_blank P (tm w') (sees_all s os).
Proof.
  induction 1 as [|h hs H _ IH]; intros w P s I Vh V D N Sh; cbn [happen].
  - exists w, []. rewrite app_nil_r. auto.
  - assert (S : exists w' os, happens e limit h w = (Ok tt, w') /\ outs w' = outs w ++ os /\ hist (tm w') = hist (tm w) /\ current_prompt (tm w') = current_prompt (tm w) /\ inside (tm w') /\
      visible (buf (tm w')) /\ shows_or_blank P (tm w') (sees_all s os)).
    { destruct h as [k|lines]; cbn [happens ordinary] in *.
      - destruct (line_key_screen e limit k w P s H I Vh V D Sh) as (w' & os & R & O & Hh & _ & Cp & V' & Sh'). exists w', os. repeat split; auto; pose proof (press_inside e limit k w I) as X; rewrite R in X; apply X.
      - destruct H as [Ne F]. destruct (notice_shown e lines w P (mk_display [] s) Ne F I V D N Sh) as (w' & os & rows & R & O & _ & _ & Sm & _ & _ & Sh' & Pr).
        exists w', os. rewrite seen_watched in Sh'. cbn [now] in Sh'. assert (E : current_prompt (tm w') = current_prompt (tm w)).
        { destruct Sm as (_ & _ & _ & _ & T & _ & S). unfold current_prompt. rewrite T, S. destruct (typing (tm w)); auto. }
        destruct Sm as (B & C & Hh & Hp & _). rewrite B. split; auto. split; auto. split; auto. split; auto. split; [|split; [auto|left; auto]].
        apply inside_iff in I. apply inside_iff. rewrite B, C, Hh, Hp. auto. }
    destruct S as (w1 & os1 & R1 & O1 & H1 & P1 & I1 & V1 & Sh1). unfold tbind. rewrite R1.
    destruct (IH w1 P (sees_all s os1)) as (w2 & os2 & R2 & O2 & Sh2); auto; try (rewrite H1; auto); try (rewrite P1; auto).
    exists w2, (os1 ++ os2). split; auto. split; [rewrite O2, O1, app_assoc; auto|]. rewrite sees_all_app. auto.
Qed.

(** ** the prompt *)
Definition has_prompt (p : str) (t : term) : Prop := prompt t = p.
Ltac prompt_tac := repeat first [progress safe_tac | apply safe_put; intros; assumption | apply safe_refresh | apply safe_refresh_line | apply safe_remove | apply safe_help | apply safe_syntax].
Lemma submit_prompt p e s : safe (has_prompt p) (submit e s).
Proof. unfold submit. destruct (0 <? _); [|prompt_tac]. destruct (startswith _ _); prompt_tac. destruct x1 as [[|l ls]|]; prompt_tac. Qed.
Lemma load_prompt p again lines : safe (has_prompt p) again -> safe (has_prompt p) (load again lines).
Proof.
  intro S. induction lines as [|l lines IH]; cbn [load]; prompt_tac.
  all: repeat match goal with |- safe _ (if ?b then _ else _) => destruct b | |- safe _ (match ?x with _ => _ end) => destruct x end; prompt_tac; auto.
Qed.
Lemma confirm_prompt p e again : safe (has_prompt p) again -> safe (has_prompt p) (confirm_with e again).
Proof.
  intro S. unfold confirm_with. prompt_tac.
  all: repeat match goal with |- safe _ (if ?b then _ else _) => destruct b | |- safe _ (match ?x with _ => _ end) => destruct x | _ => progress prompt_tac end; auto using submit_prompt, load_prompt.
Qed.
Lemma confirm_all_prompt p e limit : safe (has_prompt p) (confirm e limit).
Proof. induction limit as [|n IH]; cbn [confirm]; apply confirm_prompt; [apply safe_raise|exact IH]. Qed.
Ltac prompt_all := repeat match goal with
  | |- safe _ (if ?b then _ else _) => destruct b
  | |- safe _ (match ?x with _ => _ end) => destruct x
  | _ => progress prompt_tac end; auto using submit_prompt, load_prompt.
Lemma press_prompt p e limit k : safe (has_prompt p) (press e limit k).
Proof.
  unfold press. repeat match goal with |- safe _ (if ?b then _ else _) => destruct b end; auto using confirm_all_prompt; unfold exit_, cursorLeft, cursorRight, cursorUp, cursorDown, recall, commandCompletion, handleCtrlZ, handleEsc, handleBackspace, handleDelete, handleHome, handleEnd; prompt_all.
Qed.
Theorem loop_prompt e limit keys w : prompt (tm (snd (input_loop e limit keys w))) = prompt (tm w).
Proof.
  enough (S : safe (has_prompt (prompt (tm w))) (input_loop e limit keys)) by (apply S; reflexivity).
  generalize (prompt (tm w)). intro p. induction keys as [|k keys IH]; cbn [input_loop]; [apply safe_ret|]. apply safe_get. intros t _. destruct (alive t); [|apply safe_ret]. apply safe_bind; [|intros _; auto].
  intros w' H. pose proof (press_prompt p e limit k w' H) as X. destruct (press e limit k w') as [[x|x] w1]; auto.
Qed.
Lemma displays_cyan e p : visible p -> displays (color e COLOR_CYAN p) p.
Proof.
  intros V r. unfold color. destruct (useColor e); [|apply displays_plain; auto].
  rewrite !receives_app. change (receives (mk_screen r 0 Plain) COLOR_CYAN) with (mk_screen r 0 Plain). rewrite (displays_plain p V r). reflexivity.
Qed.
(** a message is sent after lines came while it was typed *)
Theorem prompt_replaced e limit l lines w P s : typing (tm w) = true -> Forall visible (l :: lines) -> inside (tm w) -> visible (buf (tm w)) -> displays (sms_prompt (tm w)) P -> ~ In 10 (sms_prompt (tm w)) ->
  shows_or_blank P (tm w) s ->
  exists w' os, happen e limit [Notice (l :: lines); Key CTRL_Z_CHARACTER] w = (Ok tt, w') /\ outs w' = outs w ++ os /\ typing (tm w') = false /\ buf (tm w') = [] /\
    displays (prompt (tm w')) l /\ shows l (tm w') (sees_all s os).
Proof.
  intros T F I V D N Sh. assert (Cp : current_prompt (tm w) = sms_prompt (tm w)) by (unfold current_prompt; rewrite T; auto). rewrite <- Cp in D, N.
  destruct (notice_shown e (l :: lines) w P (mk_display [] s) ltac:(discriminate) F I V D N Sh) as (w1 & os & rows & R & O & _ & _ & Sm & _ & _ & Sh1 & Pr).
  cbn [happen happens]. unfold tbind at 1. rewrite R. change (press e limit CTRL_Z_CHARACTER) with handleCtrlZ. unfold handleCtrlZ.
  destruct Sm as (B & C & Hh & Hp & T1 & Al & Sp). unfold tbind, tget. rewrite T1, T. unfold emit, tput. cbn [tm answers outs]. rewrite refresh_run. cbn [tm answers outs].
  set (t2 := set_line [] 0 (set_typing false (tm w1))). eexists. eexists. split; [reflexivity|]. cbn [outs tm]. rewrite O, <- !app_assoc. split; [reflexivity|]. split; auto. split; auto.
  assert (V1 : visible l) by (inversion F; auto). assert (E : prompt t2 = color e COLOR_CYAN l) by (unfold t2; cbn; rewrite Pr, T; auto).
  split; [rewrite E; apply displays_cyan; auto|]. rewrite !sees_all_app. unfold sees_all at 1. cbn [fold_left sees]. fold (sees_all s os).
  rewrite seen_watched in Sh1. cbn [now] in Sh1. set (s1 := sees_all s os) in *. pose proof (shown_plain P (tm w1) s1 (or_introl Sh1)) as Pl.
  assert (Z1 : receives s1 [10] = mk_screen [] 0 Plain) by (destruct s1 as [r c st]; cbn in Pl; subst st; reflexivity).
  unfold sees_all. cbn [fold_left sees]. rewrite Z1. apply refresh_shows; auto; try (unfold t2, zlen; cbn; lia).
  - unfold current_prompt. change (typing t2) with false. cbn iota. rewrite E. apply displays_cyan; auto.
  - constructor.
  - cbn [row]. rewrite skipn_nil. constructor.
Qed.
(** ** lines between the two steps of a key *)
Theorem left_alone w : cursorLeft_interrupted (tret tt) w = cursorLeft w.
Proof. unfold cursorLeft_interrupted, cursorLeft, tbind, tget. destruct (0 <? cur (tm w)); reflexivity. Qed.
Theorem left_interrupted e lines w P s a c b : lines <> [] -> Forall visible lines -> at_cursor (tm w) (a ++ [c]) b -> inside (tm w) -> visible (buf (tm w)) -> displays (current_prompt (tm w)) P -> ~ In 10 (current_prompt (tm w)) ->
  shows P (tm w) s ->
  exists w' os, cursorLeft_interrupted (handleModemNotification e lines) w = (Ok tt, w') /\ outs w' = outs w ++ os /\ at_cursor (tm w') a (c :: b) /\
    col (sees_all s os) = pred (length P + length a).
Proof.
  intros Ne F At I V D N Sh. unfold cursorLeft_interrupted, tbind at 1, tget. destruct At as [B C]. rewrite app_length in C. cbn in C.
  destruct (Z.ltb_spec 0 (cur (tm w))) as [_|X]; [|lia]. unfold tbind at 1, tput. set (t1 := set_line (buf (tm w)) (cur (tm w) - 1) (tm w)). set (w1 := mk_tworld t1 (answers w) (outs w)).
  destruct (notice_run e lines w1 Ne) as (l & R). cbn zeta in R. unfold tbind. rewrite R. unfold emit. cbn [tm answers outs].
  set (t' := after_notice e lines (tm w1)) in *. eexists. eexists. split; [reflexivity|]. cbn [outs tm w1]. rewrite <- app_assoc. split; [reflexivity|].
  assert (Sm : same_but_prompt t1 t') by apply after_same. destruct Sm as (S1 & S2 & _).
  split. { split; [rewrite S1; cbn; rewrite B, <- app_assoc; auto|]. rewrite S2. cbn. lia. }
  assert (Cp : current_prompt t' = current_prompt (tm w)) by (unfold t'; rewrite after_current; reflexivity).
  rewrite sees_all_app. set (os := [_; _; _]).
  assert (Q : exists r, sees_all s os = mk_screen r (length P + length a) Plain).
  { pose proof (seen_watched (mk_display [] s) os) as Q0. cbn [now] in Q0. rewrite <- Q0. unfold os, watches_all. cbn [fold_left].
    destruct (removed P (tm w) (mk_display [] s) D (or_introl Sh)) as (r & W1 & Bl). cbn zeta in W1. match goal with |- context [watches (mk_display [] s) ?x] => match type of W1 with watches _ ?y = _ => change x with y end end. rewrite W1.
    set (cc := if str_eqb l (lit "ERROR") then COLOR_RED else COLOR_CYAN) in *.
    destruct (printed e lines (mk_display [] (mk_screen r 0 Plain)) cc) as (rows & W2 & Rs); auto. { unfold cc. destruct (str_eqb _ _); auto. }
    cbn [above] in W2 |- *. rewrite W2. rewrite watches_now. cbn [now].
    assert (Sf : shows P t' (receives (mk_screen [] 0 Plain) (refresh_text t' 0))).
    { apply refresh_shows; auto; try rewrite Cp; try rewrite S1; try rewrite S2; auto.
      - cbn. unfold zlen. rewrite B, !app_length. cbn. lia.
      - left. lia.
      - cbn [row]. rewrite skipn_nil. constructor. }
    destruct Sf as (rest & _ & _ & Co & St). destruct (receives _ _) as [r1 c1 st1]. cbn in Co, St. subst. exists r1. f_equal. rewrite S2. cbn. lia. }
  destruct Q as (r & ->). reflexivity.
Qed.
(** ** the raw terminal *)
Theorem raw_rows lines : Forall visible lines -> forall d, now d = mk_screen [] 0 Plain ->
  watches d (raw_notification lines) = mk_display (above d ++ lines) (mk_screen [] 0 Plain).
Proof.
  unfold raw_notification. induction 1 as [|l lines V _ IH]; intros d E; cbn [map List.concat].
  - destruct d as [ab n]. cbn in E |- *. rewrite app_nil_r. subst. reflexivity.
  - rewrite <- app_assoc, watches_app, (watches_no _ _ (visible_no _ V)). rewrite E. pose proof (receives_visible l V [] []) as R. cbn [app length] in R. rewrite R, skipn_nil, app_nil_r.
    rewrite watches_app. change (watches (mk_display (above d) (mk_screen l (0 + length l) Plain)) [10]) with (mk_display (above d ++ [l]) (mk_screen [] 0 Plain)).
    rewrite IH by reflexivity. cbn [above]. rewrite <- app_assoc. reflexivity.
Qed.

Lemma join_end body l : join_lines (body ++ [l]) = List.concat (map (fun x => x ++ [10]) body) ++ l.
Proof.
  induction body as [|x body IH]; [reflexivity|]. cbn [app map List.concat]. rewrite <- !app_assoc, <- IH. cbn [join_lines]. destruct (body ++ [l]) eqn:E; [destruct body; discriminate|]. reflexivity.
Qed.
Theorem notice_colours e body l w r w' : handleModemNotification e (body ++ [l]) w = (r, w') ->
  let text := List.concat (map (fun x => x ++ [10]) body) ++ l in
  exists before after shown, outs w' = outs w ++ [OScreen before; OScreen (shown ++ [10]); OScreen after] /\
    (useColor e = false -> shown = text) /\ (useColor e = true -> l = lit "ERROR" -> shown = in_colour "31" text) /\ (useColor e = true -> l <> lit "ERROR" -> shown = in_colour "36" text).
Proof.
  intros H text. assert (Ne : body ++ [l] <> []) by (destruct body; discriminate). unfold handleModemNotification in H. rewrite rev_app_distr in H. cbn [rev app] in H.
  unfold removePrompt, tbind, tget, emit in H. cbn [tm answers outs] in H. destruct (typing (tm w)).
  - destruct (body ++ [l]) as [|l0 ls] eqn:E; [congruence|]. rewrite <- E in H. unfold tput in H. cbn [tm answers outs] in H. rewrite refresh_run in H. injection H as _ <-. cbn [outs]. rewrite <- !app_assoc.
    do 2 eexists. exists (color e (if str_eqb l (lit "ERROR") then COLOR_RED else COLOR_CYAN) (join_lines (body ++ [l]))). split; [reflexivity|]. rewrite join_end. unfold color. destruct (useColor e); repeat split; try discriminate; auto; intros _ Hl.
    + subst l. reflexivity.
    + destruct (TrieProofs.str_eqb_spec l (lit "ERROR")); [contradiction|reflexivity].
  - unfold tret in H. rewrite refresh_run in H. injection H as _ <-. cbn [outs]. rewrite <- !app_assoc.
    do 2 eexists. exists (color e (if str_eqb l (lit "ERROR") then COLOR_RED else COLOR_CYAN) (join_lines (body ++ [l]))). split; [reflexivity|]. rewrite join_end. unfold color. destruct (useColor e); repeat split; try discriminate; auto; intros _ Hl.
    + subst l. reflexivity.
    + destruct (TrieProofs.str_eqb_spec l (lit "ERROR")); [contradiction|reflexivity].
Qed.
