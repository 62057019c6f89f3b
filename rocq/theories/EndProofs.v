(** Proofs about the end of the terminal. *)
From Verif Require Import Base TrieModel TermModel TermSpec EntrySpec TermProofs.

Definition kept (a : bool) (n : nat) (w : tworld) : Prop := alive (tm w) = a /\ closings (outs w) = n.
Definition keeps_on {A} (c : T A) : Prop := forall a n w, kept a n w -> kept a n (snd (c w)).
Lemma closings_app a b : closings (a ++ b) = (closings a + closings b)%nat.
Proof. unfold closings. rewrite filter_app, app_length. reflexivity. Qed.
Lemma ko_ret {A} (x : A) : keeps_on (tret x). Proof. intros a n w H. exact H. Qed.
Lemma ko_raise {A} e : keeps_on (@traise A e). Proof. intros a n w H. exact H. Qed.
Lemma ko_get : keeps_on tget. Proof. intros a n w H. exact H. Qed.
Lemma ko_bind {A B} (c : T A) (f : A -> T B) : keeps_on c -> (forall x, keeps_on (f x)) -> keeps_on (tbind c f).
Proof. intros C F a n w H. unfold tbind. specialize (C a n w H). destruct (c w) as [[x|x] w']; [apply F; exact C|exact C]. Qed.
Lemma ko_put f : (forall t, alive (f t) = alive t) -> keeps_on (tput f).
Proof. intros E a n w [A C]. split; [cbn; rewrite E; exact A|exact C]. Qed.
Lemma ko_emit o : o <> OClose -> keeps_on (emit o).
Proof. intros N a n w [A C]. split; [exact A|]. cbn [snd emit outs]. rewrite closings_app, C. destruct o; try (cbn; lia). congruence. Qed.
Lemma ko_prompt_for s : keeps_on (prompt_for s).
Proof. intros a n w [A C]. unfold prompt_for. destruct (answers w); (split; [exact A|]); cbn [snd outs]; rewrite closings_app, C; cbn; lia. Qed.
Ltac ko := repeat first [apply ko_ret | apply ko_raise | apply ko_get | apply ko_prompt_for | apply ko_emit; discriminate | apply ko_put; reflexivity | apply ko_bind; [|intro] | progress cbv beta iota zeta
  | match goal with |- keeps_on (if ?b then _ else _) => destruct b | |- keeps_on (match ?x with _ => _ end) => destruct x end].
Lemma ko_refresh k : keeps_on (refresh k). Proof. unfold refresh. ko. Qed.
Lemma ko_refresh_line : keeps_on refresh_line. Proof. unfold refresh_line. ko. Qed.
Lemma ko_remove : keeps_on removePrompt. Proof. unfold removePrompt. ko. Qed.
Lemma ko_help e c : keeps_on (printCommandHelp e c). Proof. unfold printCommandHelp, refresh_line. ko. Qed.
Lemma ko_syntax e c : keeps_on (printCommandSyntax e c). Proof. unfold printCommandSyntax. ko. Qed.
Lemma ko_submit e s : keeps_on (submit e s). Proof. unfold submit, refresh_line, refresh. ko. Qed.
Lemma ko_load again lines : keeps_on again -> keeps_on (load again lines).
Proof. intro S. induction lines as [|l lines IH]; cbn [load]; ko; auto. Qed.
Lemma ko_confirm_with e again : keeps_on again -> keeps_on (confirm_with e again).
Proof. intro S. unfold confirm_with. repeat first [progress ko | apply ko_refresh_line | apply ko_refresh | apply ko_help | apply ko_submit | apply ko_load; assumption]. Qed.
Lemma ko_confirm e limit : keeps_on (confirm e limit).
Proof. induction limit as [|n IH]; cbn [confirm]; apply ko_confirm_with; [apply ko_raise|exact IH]. Qed.
Lemma ko_press e limit k : ~ exit_key k -> keeps_on (press e limit k).
Proof.
  intro N. unfold press. destruct (str_eqb k EXIT_CHARACTER || str_eqb k EXIT_CHARACTER_2) eqn:X.
  { exfalso. apply N. apply orb_true_iff in X as [X|X]; apply str_eqb_eq in X as ->; [left|right]; reflexivity. }
  unfold cursorLeft, cursorRight, cursorUp, cursorDown, recall, commandCompletion, handleCtrlZ, handleEsc, handleBackspace, handleDelete, handleHome, handleEnd.
  repeat first [apply ko_confirm | apply ko_refresh | apply ko_refresh_line | apply ko_syntax | progress ko].
Qed.

Lemma exit_run e limit k w : exit_key k -> press e limit k w =
  (Ok tt, mk_tworld (set_alive false (tm w)) (answers w) (outs w ++ [OScreen ([13] ++ times [32] (zlen (current_prompt (tm w)) + zlen (buf (tm w))) ++ [13]); OText; OClose])).
Proof.
  assert (X : exit_ w = (Ok tt, mk_tworld (set_alive false (tm w)) (answers w) (outs w ++ [OScreen ([13] ++ times [32] (zlen (current_prompt (tm w)) + zlen (buf (tm w))) ++ [13]); OText; OClose]))).
  { unfold exit_, removePrompt, tbind, tget, emit, tput. cbn [tm answers outs]. rewrite <- !app_assoc. reflexivity. }
  intros [-> | ->]; exact X.
Qed.
Theorem loop_ends e limit before k rest w w1 : exit_key k -> alive (tm w1) = true -> input_loop e limit before w = (Ok tt, w1) ->
  exists w2 os, input_loop e limit (before ++ k :: rest) w = (Ok tt, w2) /\ tm w2 = set_alive false (tm w1) /\ answers w2 = answers w1 /\
    outs w2 = outs w1 ++ os ++ [OClose] /\ to_port os = [] /\ closings os = 0%nat.
Proof.
  intros K Al. revert w. induction before as [|b before IH]; intros w R.
  - cbn in R. injection R as ->. cbn [List.app input_loop]. unfold tbind at 1, tget. rewrite Al. unfold tbind at 1. rewrite (exit_run e limit k w1 K).
    assert (Q : forall rest w, alive (tm w) = false -> input_loop e limit rest w = (Ok tt, w)) by (intros [|x l] w' F; cbn [input_loop]; [reflexivity|unfold tbind, tget; rewrite F; reflexivity]).
    rewrite Q by reflexivity. eexists. exists [OScreen ([13] ++ times [32] (zlen (current_prompt (tm w1)) + zlen (buf (tm w1))) ++ [13]); OText]. split; [reflexivity|]. repeat split.
  - cbn [List.app input_loop] in *. unfold tbind at 1, tget in R. unfold tbind at 1, tget. destruct (alive (tm w)) eqn:Aw.
    + unfold tbind at 1 in R. unfold tbind at 1. destruct (press e limit b w) as [[x|x] w'] eqn:P; [|discriminate R]. exact (IH w' R).
    + cbn in R. injection R as ->. congruence.
Qed.
Theorem loop_open e limit keys w : (forall k, In k keys -> ~ exit_key k) -> alive (tm w) = true ->
  match input_loop e limit keys w with
  | (Ok _, w') => alive (tm w') = true
  | (Err _, w') => alive (tm w') = false
  end /\ closings (outs (snd (input_loop e limit keys w))) = closings (outs w).
Proof.
  revert w. induction keys as [|k keys IH]; intros w N Al; [split; [exact Al|reflexivity]|].
  pose proof (ko_press e limit k (N k (or_introl eq_refl)) true (closings (outs w)) w (conj Al eq_refl)) as [A C].
  assert (R : input_loop e limit (k :: keys) w = match press e limit k w with (Ok _, w') => input_loop e limit keys w' | (Err x, w') => (Err x, mk_tworld (set_alive false (tm w')) (answers w') (outs w')) end).
  { cbn [input_loop]. unfold tbind at 1, tget. rewrite Al. unfold tbind at 1. destruct (press e limit k w) as [[x|x] w']; reflexivity. }
  rewrite R. destruct (press e limit k w) as [[x|x] w'] eqn:P; cbn [snd] in A, C.
  - destruct (IH w' (fun k' I => N k' (or_intror I)) A) as [B D]. split; [exact B|]. exact (eq_trans D C).
  - split; [reflexivity|exact C].
Qed.
(** keys without a meaning *)
Theorem other_key e limit k w : ~ has_meaning k -> press e limit k w = (Ok tt, w).
Proof.
  intro N. unfold press.
  repeat match goal with |- context [str_eqb k ?x] => let E := fresh in destruct (str_eqb k x) eqn:E; [exfalso; apply N; apply str_eqb_eq in E as ->; unfold has_meaning; cbn; tauto|] end.
  cbn [orb]. destruct k as [|c [|]]; try reflexivity. destruct (isPrintable c) eqn:P; [|reflexivity]. exfalso. apply N. right. exists c. split; [reflexivity|].
  apply printable_typable; [exact P| |]; intros ->; discriminate.
Qed.
