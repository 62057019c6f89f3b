(** Properties of the terminal, tools/gsmtermlib/terminal.py.  [e]: completion data, files
    and so on; [limit]: how deep files may load files; [tm w]: the terminal in the state
    [w]; [outs w]: what it has done. *)
From Verif Require Import Base TrieModel TermModel TermSpec TermProofs ScreenProofs.

(** a terminal that has just been started, without and with colours *)
Definition no_files : env := mk_env empty [] (fun _ => None) false.
Definition fresh : term := mk_term [] [] 0 0 false true (lit "GSM> ") (lit "> ").
Definition in_green (s : str) : str := COLOR_GREEN ++ s ++ lit (String (ascii_of_nat 27) "[0m").
Definition fresh_green : term := mk_term [] [] 0 0 false true (in_green (lit "GSM> ")) (in_green (lit "> ")).
Definition begin (t : term) : tworld := mk_tworld t [] [].
Definition key (c : Z) : str := [c].
Definition typing_of (s : string) : list str := map key (lit s).

(** C57: the cursor stays in the line whatever keys are pressed, *)
Theorem C57_inside : forall e limit keys w, inside (tm w) -> inside (tm (snd (input_loop e limit keys w))).
Proof. exact loop_inside. Qed.
Print Assumptions C57_inside.
Theorem C57_bounds : forall t, inside t <->
  0 <= cur t <= Z.of_nat (length (buf t)) /\ 0 <= hpos t <= Z.of_nat (length (hist t)) /\ Z.of_nat (length (hist t)) <= 100.
Proof. exact inside_iff. Qed.
Print Assumptions C57_bounds.
(** and keys that edit do what they do in a text *)
Theorem C57_edits : forall e limit keys w a b, Forall editing_key keys -> at_cursor (tm w) a b -> alive (tm w) = true ->
  exists a' b' w', input_loop e limit keys w = (Ok tt, w') /\ edited keys (a, b) (a', b') /\ at_cursor (tm w') a' b' /\
    same_but_line (tm w) (tm w') /\ exists os, outs w' = outs w ++ os /\ Forall on_screen os.
Proof. intros e limit keys w a b F. exact (loop_edits e limit keys F w a b). Qed.
Print Assumptions C57_edits.
Theorem C57_edits_one_way : forall k p q r, edits k p q -> edits k p r -> q = r.
Proof. exact edits_fun. Qed.
Print Assumptions C57_edits_one_way.
(** the history *)
Theorem C57_history : forall e limit k w, inside (tm w) -> k = up_key \/ k = down_key ->
  exists w', press e limit k w = (Ok tt, w') /\ (at_end k (tm w) /\ w' = w \/ recalls k (tm w) (tm w')).
Proof.
  exact (fun e limit k w I K => match recall_run e limit k w I K with
    ex_intro _ w' (conj R (conj _ H)) => ex_intro _ w' (conj R (match H with or_introl h => or_introl h | or_intror (conj h _) => or_intror h end)) end).
Qed.
Print Assumptions C57_history.
Example C57_example_fresh : inside fresh /\ inside fresh_green.
Proof. split; apply inside_iff; vm_compute; repeat split; discriminate. Qed.
(** "AX", left, "T", right, backspace, newline, "AT+", up, home, delete *)
Example C57_example :
  let keys := typing_of "AX" ++ [left_key] ++ typing_of "T" ++ [right_key; backspace_key] ++ [[10]] ++ typing_of "AT+" ++ [up_key; home_key; delete_key] in
  let (r, w) := input_loop no_files 0 keys (begin fresh) in
  r = Ok tt /\ buf (tm w) = lit "T" /\ cur (tm w) = 0 /\ hist (tm w) = [lit "AT"] /\ hpos (tm w) = 0.
Proof. vm_compute. auto. Qed.

(** C66: what the user sees is the prompt and the line, with the cursor at the right
    place, when keys edit the line or recall another *)
Theorem C66_screen : forall e limit keys w P s, Forall line_key keys -> inside (tm w) -> alive (tm w) = true ->
  Forall visible (hist (tm w)) -> visible (buf (tm w)) -> displays (current_prompt (tm w)) P -> shows_or_blank P (tm w) s ->
  exists w' os, input_loop e limit keys w = (Ok tt, w') /\ outs w' = outs w ++ os /\ shows_or_blank P (tm w') (sees_all s os).
Proof. intros e limit keys w P s F. exact (loop_screen e limit keys F w P s). Qed.
Print Assumptions C66_screen.
Theorem C66_prompt : forall p, visible p -> displays p p /\ displays (in_green p) p.
Proof. exact (fun p V => conj (displays_plain p V) (displays_colour p V)). Qed.
Print Assumptions C66_prompt.
Example C66_example_start : shows_or_blank (lit "GSM> ") fresh_green (mk_screen (lit "   ") 0 Plain) /\ visible (lit "GSM> ") /\ current_prompt fresh_green = in_green (lit "GSM> ").
Proof.
  split; [|split; [|reflexivity]].
  - right. repeat split. repeat constructor.
  - unfold visible. apply Forall_forall. intros c H. repeat (destruct H as [<-|H]; [split; discriminate|]). contradiction.
Qed.
Example C66_example :
  let keys := typing_of "ATX" ++ [left_key; backspace_key; right_key; home_key; right_key] in
  let w := snd (input_loop no_files 0 keys (begin fresh_green)) in
  buf (tm w) = lit "AX" /\ sees_all (mk_screen [] 0 Plain) (outs w) = mk_screen (lit "GSM> AX ") 6 Plain.
Proof. vm_compute. auto. Qed.
