(** Proofs about editing a line in the terminal. *)
From Verif Require Import Base TrieModel TrieSpec TermModel TermSpec.

(** ** One key *)
Lemma zlen_nn {A} (l : list A) : 0 <= zlen l. Proof. unfold zlen. lia. Qed.
Lemma zlen_app {A} (a b : list A) : zlen (a ++ b) = zlen a + zlen b.
Proof. unfold zlen. rewrite app_length. lia. Qed.
Lemma zlen_nat {A} (l : list A) : Z.to_nat (zlen l) = length l. Proof. unfold zlen. lia. Qed.
Definition typed (ch : Z) : T unit :=
  tput (fun t => set_line (firstn (Z.to_nat (cur t)) (buf t) ++ [ch] ++ skipn (Z.to_nat (cur t)) (buf t)) (cur t + 1) t) ;> refresh 0.
Lemma press_typed e limit c : typable c -> press e limit [c] = typed c.
Proof.
  intro H. unfold press, str_eqb. cbn [list_eqb EXIT_CHARACTER EXIT_CHARACTER_2 CURSOR_LEFT CURSOR_RIGHT CURSOR_UP CURSOR_DOWN CTRL_Z_CHARACTER ESC_CHARACTER BACKSPACE_CHARACTER DELETE HOME END_].
  unfold EXIT_CHARACTER, EXIT_CHARACTER_2, CURSOR_LEFT, CURSOR_RIGHT, CURSOR_UP, CURSOR_DOWN, CTRL_Z_CHARACTER, ESC_CHARACTER, BACKSPACE_CHARACTER, DELETE, HOME, END_. cbn [list_eqb].
  assert (E : forall k, c <> k -> (c =? k) && true = false) by (intros k N; rewrite andb_true_r; apply Z.eqb_neq; auto).
  assert (E2 : forall k b, c <> k -> (c =? k) && b = false) by (intros k b N; apply Z.eqb_neq in N; rewrite N; auto).
  unfold typable in H. rewrite !E2 by lia. cbn [orb].
  assert (P : isPrintable c = true). { unfold isPrintable, tspace. destruct H as [H|[->|H]]; [|reflexivity|].
    - apply orb_true_iff. left. apply andb_true_iff. split; apply Z.leb_le; lia.
    - apply orb_true_iff. right. apply orb_true_iff. left. apply andb_true_iff. split; apply Z.leb_le; lia. }
  rewrite P. reflexivity.
Qed.
Lemma press_back e limit : press e limit BACKSPACE_CHARACTER = handleBackspace. Proof. reflexivity. Qed.
Lemma press_delete e limit : press e limit DELETE = handleDelete. Proof. reflexivity. Qed.
Lemma press_left e limit : press e limit CURSOR_LEFT = cursorLeft. Proof. reflexivity. Qed.
Lemma press_right e limit : press e limit CURSOR_RIGHT = cursorRight. Proof. reflexivity. Qed.
Lemma press_home e limit : press e limit HOME = handleHome. Proof. reflexivity. Qed.
Lemma press_end e limit : press e limit END_ = handleEnd. Proof. reflexivity. Qed.
Lemma press_up e limit : press e limit CURSOR_UP = cursorUp. Proof. reflexivity. Qed.
Lemma press_down e limit : press e limit CURSOR_DOWN = cursorDown. Proof. reflexivity. Qed.

(** [refresh] writes to the screen *)
Definition refresh_text (t : term) (clearLen : Z) : str :=
  [13] ++ current_prompt t ++ buf t ++ times [32] (clearLen - zlen (buf t)) ++ times CURSOR_LEFT ((if 0 <? clearLen then clearLen else zlen (buf t)) - cur t).
Lemma refresh_run k w : refresh k w = (Ok tt, mk_tworld (tm w) (answers w) (outs w ++ [OScreen (refresh_text (tm w) k)])).
Proof. reflexivity. Qed.
Lemma cut_at a b : firstn (length a) (a ++ b) = a /\ skipn (length a) (a ++ b) = (b : str).
Proof. split; [rewrite firstn_app, firstn_all, Nat.sub_diag, firstn_O, app_nil_r|rewrite skipn_app, skipn_all, Nat.sub_diag]; auto. Qed.

(** what an editing key does, including the text for the screen *)
Definition key_text (k : str) (t t' : term) : list tout :=
  if str_eqb k CURSOR_LEFT then [OScreen CURSOR_LEFT] else if str_eqb k CURSOR_RIGHT then [OScreen CURSOR_RIGHT]
  else if str_eqb k BACKSPACE_CHARACTER || str_eqb k DELETE then [OScreen (refresh_text t' (zlen (buf t)))]
  else if str_eqb k HOME || str_eqb k END_ then [OScreen (refresh_text t' (zlen (buf t')))] else [OScreen (refresh_text t' 0)].
Definition idle (k : str) (a b : str) : bool :=
  match a, b with
  | [], _ => str_eqb k CURSOR_LEFT || str_eqb k BACKSPACE_CHARACTER
  | _, _ => false
  end || match b with [] => str_eqb k CURSOR_RIGHT || str_eqb k DELETE | _ => false end.
Lemma key_run e limit k w a b : editing_key k -> at_cursor (tm w) a b ->
  exists a' b' w', press e limit k w = (Ok tt, w') /\ edits k (a, b) (a', b') /\ at_cursor (tm w') a' b' /\ same_but_line (tm w) (tm w') /\
    answers w' = answers w /\ outs w' = outs w ++ (if idle k a b then [] else key_text k (tm w) (tm w')) /\ (idle k a b = true -> tm w' = tm w).
Proof.
  intros K [B C]. destruct w as [t an os]. cbn [tm answers outs] in *.
  assert (Ct : Z.to_nat (cur t) = length a) by lia.
  destruct K as [(c & -> & Ty)|K].
  - rewrite press_typed by auto. unfold typed, tbind, tput. rewrite refresh_run. cbn [tm answers outs]. rewrite Ct, B. destruct (cut_at a b) as [-> ->].
    exists (a ++ [c]), b. eexists. split; [reflexivity|]. split; [constructor; auto|]. cbn [tm answers outs].
    assert (Id : idle [c] a b = false). { unfold idle, str_eqb, CURSOR_LEFT, BACKSPACE_CHARACTER, CURSOR_RIGHT, DELETE. cbn [list_eqb]. unfold typable in Ty.
      destruct (Z.eqb_spec c 27); [lia|]. destruct (Z.eqb_spec c 127); [lia|]. cbn. destruct a, b; auto. }
    rewrite Id. split; [split; cbn; [rewrite <- app_assoc; auto|rewrite app_length; cbn; lia]|]. split; [repeat split|]. split; [auto|]. split; [|discriminate].
    f_equal. unfold key_text, str_eqb, CURSOR_LEFT, BACKSPACE_CHARACTER, CURSOR_RIGHT, DELETE, HOME, END_. cbn [list_eqb]. unfold typable in Ty.
    destruct (Z.eqb_spec c 27); [lia|]. destruct (Z.eqb_spec c 127); [lia|]. cbn [andb orb]. reflexivity.
  - change (In k [BACKSPACE_CHARACTER; DELETE; CURSOR_LEFT; CURSOR_RIGHT; HOME; END_]) in K. destruct K as [<-|[<-|[<-|[<-|[<-|[<-|[]]]]]]].
    + rewrite press_back. unfold handleBackspace, tbind, tget. cbn [tm]. destruct a as [|x a _] using rev_ind.
      * cbn in C. rewrite C. cbn. exists [], b. eexists. split; [reflexivity|]. split; [constructor|]. cbn. split; [split; auto|]. repeat split; auto; [rewrite app_nil_r; auto].
      * assert (P : 0 <? cur t = true) by (rewrite app_length in C; cbn in C; apply Z.ltb_lt; lia). rewrite P. unfold tput. rewrite refresh_run. cbn [tm answers outs].
        assert (Cut : firstn (Z.to_nat (cur t - 1)) (buf t) ++ skipn (Z.to_nat (cur t)) (buf t) = a ++ b).
        { rewrite Ct, B. destruct (cut_at (a ++ [x]) b) as [_ ->]. rewrite <- app_assoc. replace (Z.to_nat (cur t - 1)) with (length a) by (rewrite app_length in C; cbn in C; lia).
          destruct (cut_at a ([x] ++ b)) as [-> _]. auto. }
        rewrite Cut. exists a, b. eexists. split; [reflexivity|]. split; [constructor|]. cbn [tm answers outs].
        assert (Id : idle BACKSPACE_CHARACTER (a ++ [x]) b = false) by (unfold idle; destruct a, b; reflexivity). rewrite Id.
        split; [split; cbn; [auto|rewrite app_length in C; cbn in C; lia]|]. split; [repeat split|]. split; [auto|]. split; [|discriminate].
        f_equal. unfold key_text. cbn [str_eqb list_eqb BACKSPACE_CHARACTER CURSOR_LEFT]. change (str_eqb BACKSPACE_CHARACTER CURSOR_LEFT) with false. change (str_eqb BACKSPACE_CHARACTER CURSOR_RIGHT) with false.
        change (str_eqb BACKSPACE_CHARACTER BACKSPACE_CHARACTER) with true. cbn [orb]. replace (zlen (buf t)) with (zlen (a ++ b) + 1) by (rewrite B; unfold zlen; rewrite !app_length; cbn; lia). reflexivity.
    + rewrite press_delete. unfold handleDelete, tbind, tget. cbn [tm]. destruct b as [|x b].
      * assert (P : cur t <? zlen (buf t) = false) by (rewrite B, app_nil_r; unfold zlen; apply Z.ltb_ge; lia). rewrite P. exists a, []. eexists. split; [reflexivity|].
        split; [constructor|]. assert (Id : idle DELETE a [] = true) by (destruct a; reflexivity). rewrite Id, app_nil_r. repeat split; auto.
      * assert (P : cur t <? zlen (buf t) = true) by (rewrite B; unfold zlen; rewrite app_length; cbn; apply Z.ltb_lt; lia). rewrite P. unfold tput. rewrite refresh_run. cbn [tm answers outs].
        assert (Cut : firstn (Z.to_nat (cur t)) (buf t) ++ skipn (Z.to_nat (cur t + 1)) (buf t) = a ++ b).
        { rewrite Ct, B. destruct (cut_at a (x :: b)) as [-> _]. replace (Z.to_nat (cur t + 1)) with (length (a ++ [x])) by (rewrite app_length; cbn; lia).
          replace (a ++ x :: b) with ((a ++ [x]) ++ b) by (rewrite <- app_assoc; auto). destruct (cut_at (a ++ [x]) b) as [_ ->]. auto. }
        rewrite Cut. exists a, b. eexists. split; [reflexivity|]. split; [constructor|]. cbn [tm answers outs].
        assert (Id : idle DELETE a (x :: b) = false) by (destruct a; reflexivity). rewrite Id. split; [split; cbn; auto|]. split; [repeat split|]. split; [auto|]. split; [|discriminate].
        f_equal. unfold key_text. change (str_eqb DELETE CURSOR_LEFT) with false. change (str_eqb DELETE CURSOR_RIGHT) with false. change (str_eqb DELETE DELETE) with true. rewrite orb_true_r.
        replace (zlen (buf t)) with (zlen (a ++ b) + 1) by (rewrite B; unfold zlen; rewrite !app_length; cbn; lia). reflexivity.
    + rewrite press_left. unfold cursorLeft, tbind, tget. cbn [tm]. destruct a as [|x a _] using rev_ind.
      * cbn in C. rewrite C. cbn. exists [], b. eexists. split; [reflexivity|]. split; [constructor|]. cbn. split; [split; auto|]. repeat split; auto; [rewrite app_nil_r; auto].
      * assert (P : 0 <? cur t = true) by (rewrite app_length in C; cbn in C; apply Z.ltb_lt; lia). rewrite P. unfold tput, emit. cbn [tm answers outs].
        exists a, (x :: b). eexists. split; [reflexivity|]. split; [constructor|]. cbn [tm answers outs].
        assert (Id : idle CURSOR_LEFT (a ++ [x]) b = false) by (unfold idle; destruct a, b; reflexivity). rewrite Id.
        split; [split; cbn; [rewrite B, <- app_assoc; auto|rewrite app_length in C; cbn in C; lia]|]. repeat split; auto. discriminate.
    + rewrite press_right. unfold cursorRight, tbind, tget. cbn [tm]. destruct b as [|x b].
      * assert (P : cur t <? zlen (buf t) = false) by (rewrite B, app_nil_r; unfold zlen; apply Z.ltb_ge; lia). rewrite P. exists a, []. eexists. split; [reflexivity|].
        split; [constructor|]. assert (Id : idle CURSOR_RIGHT a [] = true) by (destruct a; reflexivity). rewrite Id, app_nil_r. repeat split; auto.
      * assert (P : cur t <? zlen (buf t) = true) by (rewrite B; unfold zlen; rewrite app_length; cbn; apply Z.ltb_lt; lia). rewrite P. unfold tput, emit. cbn [tm answers outs].
        exists (a ++ [x]), b. eexists. split; [reflexivity|]. split; [constructor|]. cbn [tm answers outs].
        assert (Id : idle CURSOR_RIGHT a (x :: b) = false) by (destruct a; reflexivity). rewrite Id. split; [split; cbn; [rewrite B, <- app_assoc; auto|rewrite app_length; cbn; lia]|].
        repeat split; auto. discriminate.
    + rewrite press_home. unfold handleHome, tbind, tput, tget. rewrite refresh_run. cbn [tm answers outs]. exists [], (a ++ b). eexists. split; [reflexivity|]. split; [constructor|]. cbn [tm answers outs].
      assert (Id : idle HOME a b = false) by (destruct a, b; reflexivity). rewrite Id. split; [split; cbn; auto|]. repeat split; auto. discriminate.
    + rewrite press_end. unfold handleEnd, tbind, tput, tget. rewrite refresh_run. cbn [tm answers outs]. exists (a ++ b), []. eexists. split; [reflexivity|]. split; [constructor|]. cbn [tm answers outs].
      assert (Id : idle END_ a b = false) by (destruct a, b; reflexivity). rewrite Id. split; [split; cbn; [rewrite app_nil_r; auto|rewrite B; auto]|]. repeat split; auto. discriminate.
Qed.

(** ** Every key keeps the cursor in the line *)
Lemma inside_iff t : inside t <-> 0 <= cur t <= zlen (buf t) /\ 0 <= hpos t <= zlen (hist t) /\ zlen (hist t) <= 100.
Proof.
  unfold inside, at_cursor, zlen. split.
  - intros ((a & b & B & C) & H & L). rewrite B, app_length. lia.
  - intros (C & H & L). split; [|lia]. exists (firstn (Z.to_nat (cur t)) (buf t)), (skipn (Z.to_nat (cur t)) (buf t)). rewrite firstn_skipn. split; auto. rewrite firstn_length. lia.
Qed.
Definition safe (P : term -> Prop) {A} (c : T A) : Prop := forall w, P (tm w) -> P (tm (snd (c w))).
Lemma safe_ret P {A} (x : A) : safe P (tret x). Proof. intros w H. auto. Qed.
Lemma safe_raise P {A} e : safe P (@traise A e). Proof. intros w H. auto. Qed.
Lemma safe_bind P {A B} (c : T A) (f : A -> T B) : safe P c -> (forall x, safe P (f x)) -> safe P (tbind c f).
Proof. intros C F w H. unfold tbind. specialize (C w H). destruct (c w) as [[x|e] w']; cbn in *; auto. apply F. auto. Qed.
Lemma safe_get (P : term -> Prop) {A} (f : term -> T A) : (forall t, P t -> safe P (f t)) -> safe P (tbind tget f).
Proof. intros F w H. unfold tbind, tget. apply (F (tm w)); auto. Qed.
Lemma safe_put (P : term -> Prop) f : (forall t, P t -> P (f t)) -> safe P (tput f). Proof. intros H w Hw. cbn. auto. Qed.
Lemma safe_emit P o : safe P (emit o). Proof. intros w H. auto. Qed.
Lemma safe_prompt_for P s : safe P (prompt_for s). Proof. intros w H. unfold prompt_for. destruct (answers w); auto. Qed.
(** what does not touch the line and the history *)
Definition same_line (t t' : term) : Prop := buf t' = buf t /\ hist t' = hist t /\ hpos t' = hpos t /\ cur t' = cur t.
Definition about_line (P : term -> Prop) : Prop := forall t t', same_line t t' -> P t -> P t'.
Lemma inside_line : about_line inside.
Proof. intros t t' (B & H & Hp & C) I. apply inside_iff in I. apply inside_iff. rewrite B, H, Hp, C. auto. Qed.
Lemma safe_tget P : safe P tget. Proof. intros w H. auto. Qed.
Ltac safe_tac := repeat first [apply safe_tget|apply safe_ret|apply safe_raise|apply safe_emit|apply safe_prompt_for|apply safe_bind; [|intro]|apply safe_get; intros].
Lemma safe_refresh P k : safe P (refresh k). Proof. unfold refresh. safe_tac. Qed.
Lemma safe_refresh_line P : safe P refresh_line. Proof. unfold refresh_line. safe_tac. Qed.
Lemma safe_remove P : safe P removePrompt. Proof. unfold removePrompt. safe_tac. Qed.
Lemma safe_help P e c : safe P (printCommandHelp e c).
Proof.
  unfold printCommandHelp. destruct (_ =? 0); [safe_tac; apply safe_refresh_line|]. destruct (t_get _ _) as [[h|]|[]]; safe_tac.
  destruct (_ =? 2); [apply safe_refresh_line|]. destruct (_ <? 5); [safe_tac|]. destruct (negb _); safe_tac.
Qed.
Lemma safe_syntax P e c : safe P (printCommandSyntax e c).
Proof. unfold printCommandSyntax. destruct (t_get _ _) as [[h|]|]; safe_tac. destruct (2 <? _); [|safe_tac]. destruct (existsb _ _); safe_tac. Qed.
Lemma safe_submit P e s : about_line P -> safe P (submit e s).
Proof.
  intro A. unfold submit. destruct (0 <? _); [|safe_tac]. destruct (startswith _ _); safe_tac.
  - apply safe_put. intros t H. eapply A; eauto. repeat split.
  - destruct x1 as [[|l ls]|]; safe_tac; apply safe_put; intros t H; eapply A; eauto; repeat split.
Qed.
Definition settled (t : term) : Prop := inside t /\ cur t = 0.
Lemma settled_line : about_line settled.
Proof. intros t t' S [I C]. split; [eapply inside_line; eauto|]. destruct S as (_ & _ & _ & ->). auto. Qed.
Lemma hist_ok h s : zlen h <= 100 -> zlen (addToHistory h s) <= 100.
Proof.
  intro H. unfold addToHistory. destruct (100 <? zlen (h ++ [s])) eqn:E; [|apply Z.ltb_ge in E; auto].
  unfold zlen in *. rewrite skipn_length, app_length in *. cbn. lia.
Qed.
Lemma safe_load again lines : safe settled again -> safe settled (load again lines).
Proof.
  intro A. induction lines as [|line lines IH]; cbn [load]; [apply safe_ret|]. apply safe_bind; [|intros _; auto]. destruct (_ && _); [|apply safe_ret].
  intros w [I C]. unfold tbind at 1, tput. cbn [tm]. unfold tbind. rewrite refresh_run. apply A. cbn [tm].
  split; [|cbn; auto]. apply inside_iff in I. apply inside_iff. cbn. rewrite C. pose proof (zlen_nn (tstrip line)). lia.
Qed.
Lemma confirm_with_inside e again : safe settled again -> forall w, inside (tm w) -> settled (tm (snd (confirm_with e again w))).
Proof.
  intros A w I. pose proof (proj1 (inside_iff _) I) as (C & Hp & L). unfold confirm_with, tbind at 1, tget. destruct (typing (tm w)).
  - cbn. split; auto. apply inside_iff. cbn. pose proof (zlen_nn (skipn (Z.to_nat (cur (tm w))) (buf (tm w)))). lia.
  - destruct (0 <? zlen (buf (tm w))) eqn:E.
    2:{ cbn. split; auto. apply Z.ltb_ge in E. pose proof (zlen_nn (buf (tm w))). lia. }
    unfold tbind at 1, tput at 1.
    match goal with |- settled (tm (snd (?c ?w1))) => assert (S : settled (tm w1)) by (split; [apply inside_iff|]; cbn; auto; unfold zlen in *; cbn; lia); generalize dependent w1 end.
    intros w1 S. revert w1 S. match goal with |- forall w1, _ -> settled (tm (snd (?c w1))) => change (safe settled c) end.
    apply safe_bind; [|intros _].
    { destruct (0 <? zlen (tstrip _)); [|apply safe_ret]. apply safe_put. intros t [St Sc]. split; auto. apply inside_iff. cbn. apply inside_iff in St. destruct St as (Q1 & Q2 & Q3). cbn in *.
      pose proof (hist_ok (hist (tm w)) (tstrip (buf (tm w))) L). pose proof (zlen_nn (addToHistory (hist (tm w)) (tstrip (buf (tm w))))). lia. }
    repeat first [apply safe_help|apply safe_refresh_line|apply safe_submit; apply settled_line|apply safe_load; assumption|apply safe_emit|apply safe_bind; [|intros _]|match goal with |- safe _ (if ?b then _ else _) => destruct b end|match goal with |- safe _ (match ?b with _ => _ end) => destruct b end].
Qed.
Lemma confirm_inside e fuel : forall w, inside (tm w) -> settled (tm (snd (confirm e fuel w))).
Proof.
  induction fuel as [|fuel IH]; cbn [confirm]; apply confirm_with_inside; [apply safe_raise|]. intros w [I _]. apply IH. auto.
Qed.
Lemma line_ok b c t : inside t -> 0 <= c <= zlen b -> inside (set_line b c t).
Proof. intros I H. apply inside_iff in I. apply inside_iff. cbn. tauto. Qed.
Lemma cut_len (t : term) : 0 <= cur t <= zlen (buf t) -> zlen (firstn (Z.to_nat (cur t)) (buf t)) = cur t /\ zlen (skipn (Z.to_nat (cur t)) (buf t)) = zlen (buf t) - cur t.
Proof. unfold zlen. rewrite firstn_length, skipn_length. lia. Qed.
Lemma safe_recall t pos k : 0 <= pos <= zlen (hist t) -> zlen (hist t) <= 100 -> safe inside (tput (set_hist (hist t) pos) ;>
  match nth_error (hist t) (Z.to_nat pos) with Some line => tput (set_line line (zlen line)) ;> refresh k | None => traise IndexError end).
Proof.
  intros Hp L. apply safe_bind; [|intros _].
  - apply safe_put. intros t' I. apply inside_iff in I. apply inside_iff. cbn. tauto.
  - destruct (nth_error _ _) as [l|]; [|apply safe_raise]. apply safe_bind; [|intros _; apply safe_refresh]. apply safe_put. intros t' I. apply line_ok; auto. pose proof (zlen_nn l). lia.
Qed.
Lemma edit_inside e limit k : editing_key k -> safe inside (press e limit k).
Proof.
  intros K w ((a & b & At) & Hp & L). destruct (key_run e limit k w a b K At) as (a' & b' & w' & R & _ & At' & (E1 & E2 & _) & _). rewrite R. cbn [snd].
  split; [exists a', b'; auto|]. rewrite E1, E2. auto.
Qed.
Lemma str_eqb_eq a b : str_eqb a b = true <-> a = b.
Proof.
  unfold str_eqb. revert b. induction a as [|x a IH]; intros [|y b]; cbn; split; intro H; try discriminate; auto.
  - apply andb_true_iff in H as [E H]. apply Z.eqb_eq in E. apply IH in H. congruence.
  - injection H as -> ->. rewrite Z.eqb_refl. apply IH. auto.
Qed.
Lemma printable_typable c : isPrintable c = true -> c <> 9 -> c <> 10 -> typable c.
Proof.
  unfold isPrintable, tspace, typable. rewrite !orb_true_iff, !andb_true_iff, !Z.leb_le, Z.eqb_eq. lia.
Qed.
Lemma press_inside e limit k : safe inside (press e limit k).
Proof.
  destruct (str_eqb k CURSOR_LEFT) eqn:E1; [apply str_eqb_eq in E1 as ->; apply edit_inside; right; cbn; tauto|].
  destruct (str_eqb k CURSOR_RIGHT) eqn:E2; [apply str_eqb_eq in E2 as ->; apply edit_inside; right; cbn; tauto|].
  destruct (str_eqb k BACKSPACE_CHARACTER) eqn:E3; [apply str_eqb_eq in E3 as ->; apply edit_inside; right; cbn; tauto|].
  destruct (str_eqb k DELETE) eqn:E4; [apply str_eqb_eq in E4 as ->; apply edit_inside; right; cbn; tauto|].
  destruct (str_eqb k HOME) eqn:E5; [apply str_eqb_eq in E5 as ->; apply edit_inside; right; cbn; tauto|].
  destruct (str_eqb k END_) eqn:E6; [apply str_eqb_eq in E6 as ->; apply edit_inside; right; cbn; tauto|].
  destruct (str_eqb k [10]) eqn:E7; [apply str_eqb_eq in E7 as ->; intros w I; apply (confirm_inside e limit w I)|].
  destruct (str_eqb k [9]) eqn:E8.
  { apply str_eqb_eq in E8 as ->. change (press e limit [9]) with (commandCompletion e). unfold commandCompletion. apply safe_get. intros t I.
    destruct (t_keys _ _) as [|m [|m2 ms]].
    - destruct (tupper _); [apply safe_raise|]. destruct (_ =? 61); [apply safe_syntax|apply safe_ret].
    - destruct (str_eqb m _); [apply safe_syntax|]. apply safe_bind; [apply safe_put; intros; apply line_ok; auto; pose proof (zlen_nn m); lia|intros _; apply safe_refresh].
    - apply safe_bind; [apply safe_put; intros; apply line_ok; auto; match goal with |- 0 <= zlen ?x <= _ => pose proof (zlen_nn x) end; lia|intros _; safe_tac]. }
  unfold press. rewrite E1, E2, E3, E4, E5, E6, E7, E8. repeat match goal with |- safe _ (if ?b then _ else _) => destruct b end.
  - unfold exit_. safe_tac; apply safe_put; intros t I; eapply inside_line; eauto; repeat split.
  - intros w I. pose proof (proj1 (inside_iff _) I) as (_ & Hp & L). unfold cursorUp, tbind at 1, tget at 1. destruct (0 <? hpos (tm w)) eqn:E; [|auto]. apply Z.ltb_lt in E.
    unfold recall, tbind at 1, tget at 1. apply safe_recall; auto; lia.
  - intros w I. pose proof (proj1 (inside_iff _) I) as (_ & Hp & L). unfold cursorDown, tbind at 1, tget at 1. destruct (_ <? _) eqn:E; [|auto]. apply Z.ltb_lt in E.
    unfold recall, tbind at 1, tget at 1. apply safe_recall; auto; lia.
  - unfold handleCtrlZ. apply safe_get. intros t _. destruct (typing t); safe_tac. apply safe_put. intros t' H0. apply inside_iff in H0. apply inside_iff. cbn. unfold zlen in *. cbn. lia.
  - unfold handleEsc. apply safe_get. intros t _. destruct (typing t); safe_tac. apply safe_put. intros t' H0. apply inside_iff in H0. apply inside_iff. cbn. unfold zlen in *. cbn. lia.
  - destruct k as [|c [|]]; try apply safe_ret. destruct (isPrintable c) eqn:P; [|apply safe_ret]. fold (typed c).
    assert (Ty : typable c). { apply printable_typable; auto; intros ->; discriminate. }
    rewrite <- (press_typed e limit c Ty). apply edit_inside. left. eauto.
Qed.
Theorem loop_inside e limit keys : safe inside (input_loop e limit keys).
Proof.
  induction keys as [|k keys IH]; cbn [input_loop]; [apply safe_ret|]. apply safe_get. intros t _. destruct (alive t); [|apply safe_ret]. apply safe_bind; [|intros _; auto].
  intros w I. pose proof (press_inside e limit k w I) as P. destruct (press e limit k w) as [[x|x] w']; auto.
Qed.

(** ** Several editing keys; the history *)
Theorem loop_edits e limit keys : Forall editing_key keys -> forall w a b, at_cursor (tm w) a b -> alive (tm w) = true ->
  exists a' b' w', input_loop e limit keys w = (Ok tt, w') /\ edited keys (a, b) (a', b') /\ at_cursor (tm w') a' b' /\ same_but_line (tm w) (tm w') /\ exists os, outs w' = outs w ++ os /\ Forall on_screen os.
Proof.
  induction 1 as [|k keys K _ IH]; intros w a b At Al; cbn [input_loop].
  - exists a, b, w. split; auto. split; [constructor|]. split; auto. split; [repeat split|]. exists []. rewrite app_nil_r. auto.
  - unfold tbind at 1, tget. rewrite Al. destruct (key_run e limit k w a b K At) as (a1 & b1 & w1 & R & Ed & At1 & Sm & _ & Os & _).
    unfold tbind. rewrite R. assert (Al1 : alive (tm w1) = true) by (destruct Sm as (_ & _ & _ & -> & _); auto).
    destruct (IH w1 a1 b1 At1 Al1) as (a2 & b2 & w2 & R2 & Ed2 & At2 & Sm2 & os2 & Os2 & F2). exists a2, b2, w2. split; auto. split; [econstructor; eauto|]. split; auto.
    split; [unfold same_but_line in *; intuition congruence|]. rewrite Os2, Os, <- app_assoc. eexists. split; [reflexivity|]. apply Forall_app. split; auto.
    destruct (idle k a b); [constructor|]. unfold key_text. repeat match goal with |- Forall _ (if ?c then _ else _) => destruct c end; repeat constructor; eexists; reflexivity.
Qed.
Lemma edits_fun k p q r : edits k p q -> edits k p r -> q = r.
Proof.
  intros H1 H2. inversion H1; subst; inversion H2; subst; auto; try (unfold typable in *; lia);
  repeat match goal with H : _ ++ [_] = _ ++ [_] |- _ => apply app_inj_tail in H as [-> ->] | H : [] = _ ++ [_] |- _ => apply app_cons_not_nil in H; contradiction | H : _ ++ [_] = [] |- _ => symmetry in H; apply app_cons_not_nil in H; contradiction end; auto.
Qed.
Theorem recall_run e limit k w : inside (tm w) -> k = CURSOR_UP \/ k = CURSOR_DOWN ->
  exists w', press e limit k w = (Ok tt, w') /\ answers w' = answers w /\ (at_end k (tm w) /\ w' = w \/ recalls k (tm w) (tm w') /\ outs w' = outs w ++ [OScreen (refresh_text (tm w') (zlen (buf (tm w))))]).
Proof.
  intros I K. apply inside_iff in I as (_ & Hp & L).
  assert (R : forall pos, 0 <= pos < zlen (hist (tm w)) -> exists h1 l h2, hist (tm w) = h1 ++ l :: h2 /\ pos = Z.of_nat (length h1) /\ nth_error (hist (tm w)) (Z.to_nat pos) = Some l).
  { intros pos P. destruct (nth_error (hist (tm w)) (Z.to_nat pos)) as [l|] eqn:E.
    - destruct (nth_error_split _ _ E) as (h1 & h2 & H & Ln). exists h1, l, h2. repeat split; auto. lia.
    - apply nth_error_None in E. unfold zlen in P. lia. }
  destruct K as [-> | ->].
  - rewrite press_up. unfold cursorUp, tbind at 1, tget at 1. destruct (0 <? hpos (tm w)) eqn:E.
    + apply Z.ltb_lt in E. destruct (R (hpos (tm w) - 1)) as (h1 & l & h2 & H & P & N); [lia|]. unfold recall, tbind at 1, tget at 1. unfold tbind, tput. cbn [tm answers outs]. rewrite N, refresh_run.
      eexists. split; [reflexivity|]. split; [reflexivity|]. right. split; [|reflexivity]. exists h1, l, h2. cbn. split; auto. split; auto. split; [split; [rewrite app_nil_r; auto|auto]|]. split; [left; split; [auto|lia]|]. auto.
    + apply Z.ltb_ge in E. exists w. split; auto. split; auto. left. split; auto. left. split; auto. lia.
  - rewrite press_down. unfold cursorDown, tbind at 1, tget at 1. destruct (hpos (tm w) <? zlen (hist (tm w)) - 1) eqn:E.
    + apply Z.ltb_lt in E. destruct (R (hpos (tm w) + 1)) as (h1 & l & h2 & H & P & N); [lia|]. unfold recall, tbind at 1, tget at 1. unfold tbind, tput. cbn [tm answers outs]. rewrite N, refresh_run.
      eexists. split; [reflexivity|]. split; [reflexivity|]. right. split; [|reflexivity]. exists h1, l, h2. cbn. split; auto. split; auto. split; [split; [rewrite app_nil_r; auto|auto]|]. split; [right; split; [auto|lia]|]. auto.
    + apply Z.ltb_ge in E. exists w. split; auto. split; auto. left. split; auto. right. split; auto. unfold zlen in *. lia.
Qed.
