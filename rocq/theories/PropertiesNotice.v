(** The lines from the modem that the terminal prints. *)
From Verif Require Import Base TrieModel TermModel TermSpec TermProofs ScreenProofs NoticeModel NoticeSpec NoticeProofs.

(** C87: the lines come to stand in rows of their own above the input line, which is shown
    as before; nothing is sent and the line, the cursor and the history stay the same *)
Theorem C87_shown : forall e lines w P d, lines <> [] -> Forall visible lines -> inside (tm w) -> visible (buf (tm w)) -> displays (current_prompt (tm w)) P -> ~ In 10 (current_prompt (tm w)) ->
  shows_or_blank P (tm w) (now d) ->
  exists w' os rows, handleModemNotification e lines w = (Ok tt, w') /\ outs w' = outs w ++ os /\ Forall on_screen os /\ answers w' = answers w /\ same_but_prompt (tm w) (tm w') /\
    above (watches_all d os) = above d ++ rows /\ rows_show lines rows /\ shows P (tm w') (now (watches_all d os)) /\
    prompt (tm w') = (if typing (tm w) then color e COLOR_CYAN (hd [] lines) else prompt (tm w)).
Proof. exact notice_shown. Qed.
Print Assumptions C87_shown.
(** in red if the last line is ERROR, and in cyan otherwise, unless colours are off *)
Theorem C87_colours : forall e body l w r w', handleModemNotification e (body ++ [l]) w = (r, w') ->
  let text := List.concat (map (fun x => x ++ [10]) body) ++ l in
  exists before after shown, outs w' = outs w ++ [OScreen before; OScreen (shown ++ [10]); OScreen after] /\
    (useColor e = false -> shown = text) /\ (useColor e = true -> l = lit "ERROR" -> shown = in_colour "31" text) /\ (useColor e = true -> l <> lit "ERROR" -> shown = in_colour "36" text).
Proof. exact notice_colours. Qed.
Print Assumptions C87_colours.
(** however keys and lines alternate, the screen shows the prompt and the line *)
Theorem C87_mixed : forall e limit hs, Forall ordinary hs -> forall w P s, inside (tm w) -> Forall visible (hist (tm w)) -> visible (buf (tm w)) ->
  displays (current_prompt (tm w)) P -> ~ In 10 (current_prompt (tm w)) -> shows_or_blank P (tm w) s ->
  exists w' os, happen e limit hs w = (Ok tt, w') /\ outs w' = outs w ++ os /\ shows_or_blank P (tm w') (sees_all s os).
Proof. exact mixed_screen. Qed.
Print Assumptions C87_mixed.
(** the rows of the raw terminal *)
Theorem C87_raw : forall lines, Forall visible lines -> forall d, now d = mk_screen [] 0 Plain ->
  watches d (raw_notification lines) = mk_display (above d ++ lines) (mk_screen [] 0 Plain).
Proof. exact raw_rows. Qed.
Print Assumptions C87_raw.
(** Violated: lines that come while a message is typed replace the prompt of command
    lines.  After Ctrl-Z the first of these lines is shown as prompt, *)
Theorem C87_prompt_replaced : forall e limit l lines w P s, typing (tm w) = true -> Forall visible (l :: lines) -> inside (tm w) -> visible (buf (tm w)) -> displays (sms_prompt (tm w)) P ->
  ~ In 10 (sms_prompt (tm w)) -> shows_or_blank P (tm w) s ->
  exists w' os, happen e limit [Notice (l :: lines); Key ctrl_z] w = (Ok tt, w') /\ outs w' = outs w ++ os /\ typing (tm w') = false /\ buf (tm w') = [] /\
    displays (prompt (tm w')) l /\ shows l (tm w') (sees_all s os).
Proof. exact prompt_replaced. Qed.
Print Assumptions C87_prompt_replaced.
(** and no key brings the prompt back. *)
Theorem C87_prompt_stays : forall e limit keys w, prompt (tm (snd (input_loop e limit keys w))) = prompt (tm w).
Proof. exact loop_prompt. Qed.
Print Assumptions C87_prompt_stays.
(** Violated: lines that come between the two steps of the cursor-left key.  The
    screen's cursor is then one column left of the place where the next key acts. *)
Theorem C87_interrupted : forall e lines w P s a c b, lines <> [] -> Forall visible lines -> at_cursor (tm w) (a ++ [c]) b -> inside (tm w) -> visible (buf (tm w)) ->
  displays (current_prompt (tm w)) P -> ~ In 10 (current_prompt (tm w)) -> shows P (tm w) s ->
  exists w' os, cursorLeft_interrupted (handleModemNotification e lines) w = (Ok tt, w') /\ outs w' = outs w ++ os /\ at_cursor (tm w') a (c :: b) /\
    col (sees_all s os) = pred (length P + length a).
Proof. exact left_interrupted. Qed.
Print Assumptions C87_interrupted.
Theorem C87_uninterrupted : forall w, cursorLeft_interrupted (tret tt) w = cursorLeft w.
Proof. exact left_alone. Qed.
Print Assumptions C87_uninterrupted.

Definition coloured : env := mk_env empty [] (fun _ => None) true.
Definition green (s : str) : str := color coloured COLOR_GREEN s.
(** "AT" with the cursor at the end, and a message "Hi" being typed *)
Definition at_prompt : term := mk_term (lit "AT") [] 0 2 false true (green (lit "GSM> ")) (green (lit "> ")).
Definition in_message : term := mk_term (lit "Hi") [] 0 2 true true (green (lit "GSM> ")) (green (lit "> ")).
Definition world_of (t : term) : tworld := mk_tworld t [] [].
Definition ring : list str := [lit "RING"; lit "+CLIP: 123"].
Lemma visible_lit s : forallb (fun c => (32 <=? c) && (c <=? 126)) s = true -> visible s.
Proof. intro H. apply Forall_forall. intros c I. rewrite forallb_forall in H. specialize (H c I). apply andb_true_iff in H as [A B]. apply Z.leb_le in A. apply Z.leb_le in B. lia. Qed.
Example C87_example_start : inside at_prompt /\ displays (current_prompt at_prompt) (lit "GSM> ") /\ ~ In 10 (current_prompt at_prompt) /\ Forall visible ring /\
  shows (lit "GSM> ") at_prompt (mk_screen (lit "GSM> AT") 7 Plain) /\ at_cursor at_prompt (lit "A" ++ lit "T") [].
Proof.
  split; [apply inside_iff; vm_compute; repeat split; discriminate|]. split; [exact (displays_colour (lit "GSM> ") (visible_lit (lit "GSM> ") eq_refl))|]. split; [vm_compute; intuition discriminate|].
  split; [constructor; [|constructor; [|constructor]]; apply visible_lit; reflexivity|]. split; [exists []; repeat split; constructor|split; reflexivity].
Qed.
Example C87_example : let w := snd (handleModemNotification coloured ring (world_of at_prompt)) in
  let d := watches_all (mk_display [] (mk_screen (lit "GSM> AT") 7 Plain)) (outs w) in
  map (firstn 10) (above d) = [lit "RING      "; lit "+CLIP: 123"] /\ now d = mk_screen (lit "GSM> AT") 7 Plain.
Proof. vm_compute. auto. Qed.
Example C87_example_mixed : let w := snd (happen coloured 0 [Key (lit "X"); Notice ring; Key backspace_key; Key left_key; Notice [lit "ERROR"]] (world_of at_prompt)) in
  sees_all (mk_screen (lit "GSM> AT") 7 Plain) (outs w) = mk_screen (lit "GSM> AT") 6 Plain.
Proof. vm_compute. auto. Qed.
Example C87_example_prompt : let w := snd (happen coloured 0 [Notice ring; Key ctrl_z; Key (lit "A")] (world_of in_message)) in
  sees_all (mk_screen (lit "> Hi") 4 Plain) (outs w) = mk_screen (lit "RINGA") 5 Plain.
Proof. vm_compute. auto. Qed.
Example C87_example_interrupted : let w := snd (cursorLeft_interrupted (handleModemNotification coloured ring) (world_of at_prompt)) in
  cur (tm w) = 1 /\ sees_all (mk_screen (lit "GSM> AT") 7 Plain) (outs w) = mk_screen (lit "GSM> AT") 5 Plain.
Proof. vm_compute. auto. Qed.
Example C87_example_colours : nth_error (outs (snd (handleModemNotification coloured [lit "x"; lit "ERROR"] (world_of at_prompt)))) 1 = Some (OScreen (in_colour "31" (lit "x" ++ 10 :: lit "ERROR") ++ [10])) /\
  nth_error (outs (snd (handleModemNotification coloured [lit "+CME ERROR: 3"] (world_of at_prompt)))) 1 = Some (OScreen (in_colour "36" (lit "+CME ERROR: 3") ++ [10])).
Proof. vm_compute. auto. Qed.
