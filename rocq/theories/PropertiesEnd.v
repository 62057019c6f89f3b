(** The end of the terminal, and keys that do nothing. *)
From Verif Require Import Base TrieModel TermModel TermSpec EntrySpec TermProofs EndProofs.

(** C88: Ctrl-] and Ctrl-D end the terminal: no later key does anything, nothing more is
    sent, the line and the history stay, and the port is closed, *)
Theorem C88_ends : forall e limit before k rest w w1, exit_key k -> alive (tm w1) = true -> input_loop e limit before w = (Ok tt, w1) ->
  exists w2 os, input_loop e limit (before ++ k :: rest) w = (Ok tt, w2) /\ tm w2 = set_alive false (tm w1) /\ answers w2 = answers w1 /\
    outs w2 = outs w1 ++ os ++ [OClose] /\ to_port os = [] /\ closings os = 0%nat.
Proof. exact loop_ends. Qed.
Print Assumptions C88_ends.
(** and no other keys end it, unless an exception does, which leaves the port open. *)
Theorem C88_open : forall e limit keys w, (forall k, In k keys -> ~ exit_key k) -> alive (tm w) = true ->
  match input_loop e limit keys w with
  | (Ok _, w') => alive (tm w') = true
  | (Err _, w') => alive (tm w') = false
  end /\ closings (outs (snd (input_loop e limit keys w))) = closings (outs w).
Proof. exact loop_open. Qed.
Print Assumptions C88_open.
(** All other keys do nothing. *)
Theorem C88_other_key : forall e limit k w, ~ has_meaning k -> press e limit k w = (Ok tt, w).
Proof. exact other_key. Qed.
Print Assumptions C88_other_key.

Definition plain : env := mk_env empty [] (fun _ => None) false.
Definition started : tworld := mk_tworld (mk_term [] [] 0 0 false true (lit "GSM> ") (lit "> ")) [] [].
Example C88_example : let w := snd (input_loop plain 0 [lit "A"; lit "T"; ctrl_d; lit "X"; [10]] started) in
  buf (tm w) = lit "AT" /\ alive (tm w) = false /\ closings (outs w) = 1%nat /\ to_port (outs w) = [].
Proof. vm_compute. auto. Qed.
(** TAB behind an empty line *)
Example C88_example_open : let (r, w) := input_loop plain 0 [[9]; ctrl_d] started in
  r = Err IndexError /\ alive (tm w) = false /\ closings (outs w) = 0%nat.
Proof. vm_compute. auto. Qed.
(** Page Up, and an umlaut *)
Example C88_example_other : ~ has_meaning [27; 91; 53; 126] /\ ~ has_meaning [195; 164] /\ ~ has_meaning [3].
Proof.
  assert (N : forall k, ~ In k [ctrl_bracket; ctrl_d; left_key; right_key; up_key; down_key; [10]; [9]; ctrl_z; escape_key; backspace_key; delete_key; home_key; end_key] ->
    (forall c, k = [c] -> ~ typable c) -> ~ has_meaning k) by (intros k A B [C|(c & D & E)]; [exact (A C)|exact (B c D E)]).
  repeat split; apply N; try (vm_compute; intuition discriminate); intros c Hc; try discriminate Hc. injection Hc as <-. unfold typable. lia.
Qed.
