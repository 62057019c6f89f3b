(** Keys that arrive together (C113). *)
From Coq Require Import Lia.
From Verif Require Import Base TermModel TermSpec TermProofs KeysModel KeysSpec.

Lemma str_eqb_eq a b : str_eqb a b = true <-> a = b.
Proof.
  revert b. induction a as [|x a IH]; intros [|y b]; cbn; try (split; congruence).
  rewrite Bool.andb_true_iff, Z.eqb_eq, IH. split; [intros [-> ->]; auto|intros [= -> ->]; auto].
Qed.

Lemma console_get q l : q <> [] -> console q (KGet :: l) = match console (skipn 4 q) l with Some (ks, rest) => Some (firstn 4 q :: ks, rest) | None => None end.
Proof. intros N. destruct q; [congruence|reflexivity]. Qed.
Theorem console_keeps : forall l q ks rest, console q l = Some (ks, rest) -> List.concat ks ++ rest = q ++ typed_of l /\ Forall key_press ks.
Proof.
  induction l as [|[s|] l IH]; intros q ks rest; [cbn [console typed_of]..|].
  - intros [= <- <-]. rewrite app_nil_r. auto.
  - intros E. destruct (IH _ _ _ E) as [A B]. split; [rewrite A, app_assoc; reflexivity|auto].
  - destruct (list_eq_dec Z.eq_dec q []) as [->|N]; [discriminate|]. rewrite (console_get _ _ N). cbn [typed_of].
    destruct (console (skipn 4 q) l) as [[ks' rest']|] eqn:E; [|discriminate]. intros X.
    assert (X1 : ks = firstn 4 q :: ks') by congruence. assert (X2 : rest = rest') by congruence. clear X. subst ks rest.
    destruct (IH _ _ _ E) as [A B]. split.
    + cbn [List.concat]. rewrite <- app_assoc, A, app_assoc, firstn_skipn. reflexivity.
    + constructor; [|auto]. unfold key_press. rewrite firstn_length. destruct q; [congruence|]. cbn [length]. lia.
Qed.
Theorem one_by_one ks : Forall key_press ks -> console [] (leisurely ks) = Some (ks, []).
Proof.
  induction 1 as [|k ks [A B] _ IH]; [reflexivity|]. cbn [leisurely console List.app]. destruct k as [|c k]; [cbn in A; lia|].
  rewrite skipn_all2, IH, firstn_all2 by (cbn [length] in *; lia). reflexivity.
Qed.
(** ** All at once *)
Fixpoint fours (n : nat) (s : str) : list str :=
  match n with
  | O => []
  | S n' => firstn 4 s :: fours n' (skipn 4 s)
  end.
Lemma skip_skip {A} a b (l : list A) : skipn a (skipn b l) = skipn (b + a) l.
Proof. revert l. induction b as [|b IH]; intros l; [reflexivity|]. destruct l; [destruct a; reflexivity|]. cbn [skipn Nat.add]. apply IH. Qed.
Lemma console_gets n : forall s, (4 * n < length s + 4)%nat -> console s (repeat KGet n) = Some (fours n s, skipn (4 * n) s).
Proof.
  induction n as [|n IH]; intros s L; [reflexivity|]. change (repeat KGet (S n)) with (KGet :: repeat KGet n).
  rewrite console_get by (intros ->; cbn [length] in L; lia).
  rewrite IH by (rewrite skipn_length; lia). cbn [fours]. rewrite skip_skip. do 3 f_equal. lia.
Qed.

(** ** The raw terminal *)
Lemma raw_all ks : (forall k, In k ks -> k <> ctrl_bracket) -> raw_loop ks = (List.concat (map raw_sends ks), List.concat ks).
Proof.
  induction ks as [|k ks IH]; intros N; [reflexivity|]. cbn [raw_loop map List.concat].
  destruct (str_eqb k EXIT_CHARACTER) eqn:E; [apply str_eqb_eq in E; destruct (N k (or_introl eq_refl) E)|].
  rewrite IH by (intros x I; apply N; right; auto). unfold raw_sends. destruct (str_eqb k [10]); reflexivity.
Qed.
Lemma raw_exit a b : (forall k, In k a -> k <> ctrl_bracket) -> raw_loop (a ++ ctrl_bracket :: b) = raw_loop a.
Proof.
  induction a as [|k a IH]; intros N; [reflexivity|]. cbn [raw_loop List.app].
  destruct (str_eqb k EXIT_CHARACTER) eqn:E; [reflexivity|]. rewrite IH by (intros x I; apply N; right; auto). reflexivity.
Qed.
(** whatever comes together: text without newline and Ctrl-] is sent as typed *)
Theorem raw_text l ks rest : console [] l = Some (ks, rest) -> ~ In 10 (List.concat ks) -> ~ In 29 (List.concat ks) ->
  exists t, raw_loop ks = (t, t) /\ t ++ rest = typed_of l.
Proof.
  intros C N X. destruct (console_keeps _ _ _ _ C) as [E _]. exists (List.concat ks). split; [|exact E].
  rewrite raw_all.
  - f_equal. clear - N. induction ks as [|k ks IH]; [reflexivity|]. cbn [map List.concat] in *. rewrite in_app_iff in N. rewrite IH by auto. f_equal.
    unfold raw_sends. destruct (str_eqb k [10]) eqn:Q; [|reflexivity]. apply str_eqb_eq in Q. subst. destruct N. left. left. reflexivity.
  - intros k I ->. apply X. apply in_concat. exists ctrl_bracket. split; [auto|left; reflexivity].
Qed.
(** newline and Ctrl-] mean something only alone *)
Theorem raw_together a k b : (forall x, In x (a ++ b) -> x <> ctrl_bracket) -> (2 <= length k)%nat ->
  fst (raw_loop (a ++ k :: b)) = List.concat (map raw_sends a) ++ k ++ List.concat (map raw_sends b).
Proof.
  intros N L. rewrite raw_all.
  - cbn [fst]. rewrite map_app, concat_app. cbn [map List.concat]. do 2 f_equal. unfold raw_sends. destruct (str_eqb k [10]) eqn:Q; [|reflexivity].
    apply str_eqb_eq in Q. subst. cbn in L. lia.
  - intros x I. rewrite in_app_iff in I. destruct I as [I|[<-|I]]; [apply N, in_app_iff; auto| |apply N, in_app_iff; auto]. intros ->. cbn in L. lia.
Qed.

(** ** gsmterm *)
Lemma existsb_eq k l : existsb (str_eqb k) l = false -> forall x, In x l -> str_eqb k x = false.
Proof. intros E x I. destruct (str_eqb k x) eqn:Q; [|reflexivity]. rewrite <- E. symmetry. apply existsb_exists. eauto. Qed.
Lemma press_unknown e limit k : known k = false -> press e limit k = tret tt.
Proof.
  intros U. unfold known in U. apply Bool.orb_false_iff in U as [L U]. apply Nat.eqb_neq in L.
  assert (S : forall c, str_eqb k [c] = false) by (intros c; destruct (str_eqb k [c]) eqn:Q; [|reflexivity]; apply str_eqb_eq in Q; subst; cbn in L; congruence).
  assert (D : forall x, In x [up_key; down_key; right_key; left_key; delete_key; home_key; end_key] -> str_eqb k x = false) by (apply existsb_eq; auto).
  unfold press, EXIT_CHARACTER, EXIT_CHARACTER_2, CTRL_Z_CHARACTER, ESC_CHARACTER, BACKSPACE_CHARACTER. rewrite !S. cbn [orb].
  rewrite (D CURSOR_LEFT), (D CURSOR_RIGHT), (D CURSOR_UP), (D CURSOR_DOWN), (D DELETE), (D HOME), (D END_) by (cbn; tauto).
  destruct k as [|x [|y k]]; try reflexivity. cbn in L. congruence.
Qed.
Theorem only_known e limit ks : forall w, input_loop e limit ks w = input_loop e limit (filter known ks) w.
Proof.
  induction ks as [|k ks IH]; intros w; [reflexivity|]. cbn [filter]. destruct (known k) eqn:K.
  - cbn [input_loop]. unfold tbind, tget. cbn. destruct (alive (tm w)); [|reflexivity]. destruct (press e limit k w) as [[u|x] w']; [apply IH|reflexivity].
  - rewrite <- IH. cbn [input_loop]. rewrite (press_unknown _ _ _ K). unfold tbind, tget, tret. cbn. destruct (alive (tm w)) eqn:A; [reflexivity|].
    destruct ks as [|k' ks]; [reflexivity|]. cbn [input_loop]. unfold tbind, tget. cbn. rewrite A. reflexivity.
Qed.
(** a text that arrives as a whole *)
Lemma fours_known n : forall s, (4 * n < length s + 4)%nat -> (length s <= 4 * n)%nat -> ~ In 27 s ->
  filter known (fours n s) = if (length s mod 4 =? 1)%nat then [skipn (length s - 1) s] else [].
Proof.
  induction n as [|n IH]; intros s L1 L2 N.
  { destruct s; [reflexivity|cbn [length] in L2; lia]. }
  cbn [fours filter].
  assert (K : known (firstn 4 s) = (length s =? 1)%nat).
  { unfold known. rewrite firstn_length. replace (existsb _ _) with false; [rewrite Bool.orb_false_r|].
    - destruct (Nat.eqb_spec (length s) 1) as [->|]; [reflexivity|]. apply Nat.eqb_neq. lia.
    - symmetry. apply Bool.not_true_is_false. intros E. apply existsb_exists in E as (x & I & Q). apply str_eqb_eq in Q. apply N.
      assert (H : In 27 (firstn 4 s)) by (rewrite Q; repeat (destruct I as [<-|I]; [left; reflexivity|]); destruct I).
      rewrite <- (firstn_skipn 4 s). apply in_app_iff. auto. }
  rewrite K. destruct (Nat.le_gt_cases (length s) 4) as [Le|Gt].
  - destruct n as [|n]; [|lia]. cbn [fours filter]. destruct s as [|a [|b [|c [|d [|x s]]]]]; cbn [length] in *; try lia; reflexivity.
  - rewrite (IH (skipn 4 s)); [|rewrite skipn_length; lia|rewrite skipn_length; lia|].
    + rewrite skipn_length. replace (length s =? 1)%nat with false by (symmetry; apply Nat.eqb_neq; lia).
      replace ((length s - 4) mod 4)%nat with (length s mod 4)%nat.
      * destruct (Nat.eqb_spec (length s mod 4) 1) as [M|M]; [|reflexivity]. f_equal.
        rewrite skip_skip. f_equal. lia.
      * replace (length s) with ((length s - 4) + 1 * 4)%nat at 1 by lia. apply Nat.mod_add. discriminate.
    + intros I. apply N. rewrite <- (firstn_skipn 4 s). apply in_app_iff. auto.
Qed.
Theorem pasted e limit s : ~ In 27 s -> exists n ks, console [] (KTyped s :: repeat KGet n) = Some (ks, []) /\
  forall w, input_loop e limit ks w = input_loop e limit (if (length s mod 4 =? 1)%nat then [skipn (length s - 1) s] else []) w.
Proof.
  intros N. exists ((length s + 3) / 4)%nat, (fours ((length s + 3) / 4) s).
  assert (L1 : (4 * ((length s + 3) / 4) < length s + 4)%nat) by (pose proof (Nat.mul_div_le (length s + 3) 4 ltac:(discriminate)); lia).
  assert (L2 : (length s <= 4 * ((length s + 3) / 4))%nat) by (pose proof (Nat.mul_succ_div_gt (length s + 3) 4 ltac:(discriminate)); lia).
  split.
  - cbn [console List.app]. rewrite (console_gets _ _ L1). rewrite skipn_all2 by lia. reflexivity.
  - intros w. rewrite only_known, fours_known by auto. reflexivity.
Qed.
(** ** A key for moving that arrives in pieces *)
Lemma typed_keys text : Forall typable text -> forall a b, edited (map (fun c => [c]) text) (a, b) (a ++ text, b).
Proof.
  induction 1 as [|c text T _ IH]; intros a b; cbn [map]; [rewrite app_nil_r; constructor|].
  econstructor; [constructor; exact T|]. replace (a ++ c :: text) with ((a ++ [c]) ++ text) by (rewrite <- app_assoc; reflexivity). apply IH.
Qed.
Lemma edited_fun ks : forall p q, edited ks p q -> forall r, edited ks p r -> q = r.
Proof.
  induction 1 as [|k ks p q r E _ IH]; intros r' R; inversion R as [|? ? ? q0 ? E' R']; subst; [reflexivity|]. apply IH.
  assert (X : q = q0); [|rewrite X; auto].
  clear - E E'. destruct p as [a b].
  assert (S : forall c, [c] = backspace_key -> typable c -> False) by (unfold typable, backspace_key; intros c [= ->]; lia).
  inversion E; subst; inversion E'; subst; try reflexivity; try discriminate; try (exfalso; eauto; fail);
    repeat match goal with
    | H : _ ++ [_] = _ ++ [_] |- _ => apply app_inj_tail in H as [? ?]; subst
    | H : _ ++ [_] = [] |- _ => destruct (app_cons_not_nil _ _ _ (eq_sym H))
    | H : [] = _ ++ [_] |- _ => destruct (app_cons_not_nil _ _ _ H)
    end; try reflexivity; exfalso; match goal with H : typable 127 |- _ => exact (S _ eq_refl H) end.
Qed.
Lemma moving_typable k : In k [up_key; down_key; right_key; left_key; delete_key; home_key; end_key] -> exists rest, k = 27 :: rest /\ Forall typable rest.
Proof.
  intros I. assert (T : forall x, 33 <= x <= 126 -> typable x) by (left; auto).
  repeat (destruct I as [<-|I]; [eexists; split; [reflexivity|]; repeat (apply Forall_cons; [apply T; lia|]); apply Forall_nil|]). destruct I.
Qed.
Lemma typed_loop e limit rest w a b : Forall typable rest -> alive (tm w) = true -> at_cursor (tm w) a b ->
  exists w', input_loop e limit (map (fun c => [c]) rest) w = (Ok tt, w') /\ at_cursor (tm w') (a ++ rest) b /\ typing (tm w') = typing (tm w) /\
    exists os, outs w' = outs w ++ os /\ Forall on_screen os.
Proof.
  intros F A C. destruct (loop_edits e limit (map (fun c => [c]) rest)) with (w := w) (a := a) (b := b) as (a' & b' & w' & R & Ed & C' & S & os & O & OS); auto.
  { clear - F. induction F; cbn; [apply Forall_nil|apply Forall_cons; [left; eauto|auto]]. }
  exists w'. split; [exact R|]. pose proof (edited_fun _ _ _ Ed _ (typed_keys rest F a b)) as Q. injection Q as -> ->.
  split; [exact C'|]. destruct S as (_ & _ & S & _). split; [exact S|]. eauto.
Qed.
Theorem in_pieces e limit k w a b : In k [up_key; down_key; right_key; left_key; delete_key; home_key; end_key] ->
  alive (tm w) = true -> typing (tm w) = false -> at_cursor (tm w) a b ->
  exists w', input_loop e limit (map (fun c => [c]) k) w = (Ok tt, w') /\ at_cursor (tm w') (a ++ tl k) b /\ typing (tm w') = false /\
    exists os, outs w' = outs w ++ os /\ Forall on_screen os.
Proof.
  intros I A T C. destruct (moving_typable _ I) as (rest & -> & F). cbn [map tl].
  assert (P : input_loop e limit ([27] :: map (fun c => [c]) rest) w = input_loop e limit (map (fun c => [c]) rest) w).
  { cbn [input_loop]. unfold tbind at 1, tget at 1. rewrite A. unfold tbind at 1. change (press e limit [27]) with handleEsc. unfold handleEsc at 1. unfold tbind at 1, tget at 1. rewrite T. reflexivity. }
  rewrite P. destruct (typed_loop e limit rest w a b F A C) as (w' & R & C' & S & O). exists w'. rewrite <- T. auto.
Qed.
(** while a message is typed, the first piece cancels it *)
Theorem cancelled e limit k w : In k [up_key; down_key; right_key; left_key; delete_key; home_key; end_key] ->
  alive (tm w) = true -> typing (tm w) = true ->
  exists w', input_loop e limit (map (fun c => [c]) k) w = (Ok tt, w') /\ at_cursor (tm w') (tl k) [] /\ typing (tm w') = false /\
    exists os, outs w' = outs w ++ OSerial [27] :: os /\ Forall on_screen os.
Proof.
  intros I A T. destruct (moving_typable _ I) as (rest & -> & F). cbn [map tl].
  set (w1 := mk_tworld (set_line [] 0 (set_typing false (tm w))) (answers w) (outs w ++ [OSerial [27]])).
  assert (P : input_loop e limit ([27] :: map (fun c => [c]) rest) w = input_loop e limit (map (fun c => [c]) rest) w1).
  { cbn [input_loop]. unfold tbind at 1, tget at 1. rewrite A. unfold tbind at 1. change (press e limit [27]) with handleEsc. unfold handleEsc at 1. unfold tbind at 1, tget at 1. rewrite T. reflexivity. }
  rewrite P. destruct (typed_loop e limit rest w1 [] [] F) as (w' & R & C' & S & os & O & OS); [exact A|split; reflexivity|].
  exists w'. split; [exact R|]. split; [exact C'|]. split; [exact S|]. exists os. split; [|exact OS]. rewrite O. cbn [w1 outs]. rewrite <- app_assoc. reflexivity.
Qed.
