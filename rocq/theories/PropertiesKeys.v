(** Property C113: keys that arrive together, or in pieces. *)
From Verif Require Import Base TrieModel TermModel TermSpec KeysModel KeysSpec KeysProofs.

(** C113: the console loses nothing and gives 1 to 4 characters at a time; *)
Theorem C113_console : forall l q ks rest, console q l = Some (ks, rest) -> List.concat ks ++ rest = q ++ typed_of l /\ Forall key_press ks.
Proof. exact console_keeps. Qed.
Print Assumptions C113_console.
(** if each key is read before the next one is pressed, it gives the keys. *)
Theorem C113_one_by_one : forall ks, Forall key_press ks -> console [] (leisurely ks) = Some (ks, []).
Proof. exact one_by_one. Qed.
Print Assumptions C113_one_by_one.
Example C113_console_example :
  console [] [KTyped (lit "AT"); KTyped (lit "+C"); KTyped (lit "SQ"); KGet; KTyped left_key; KGet; KGet] = Some ([lit "AT+C"; [83; 81; 27; 91]; [68]], []) /\
  Forall key_press [lit "A"; left_key; delete_key; [10]].
Proof. split; [reflexivity|]. repeat constructor; unfold key_press; cbn; auto with arith. Qed.

(** The raw terminal sends text as typed, however it arrives; *)
Theorem C113_raw_text : forall l ks rest, console [] l = Some (ks, rest) -> ~ In 10 (List.concat ks) -> ~ In 29 (List.concat ks) ->
  exists t, raw_loop ks = (t, t) /\ t ++ rest = typed_of l.
Proof. exact raw_text. Qed.
Print Assumptions C113_raw_text.
(** but newline and Ctrl-] mean something only if read alone: with other characters
    they are sent as they are, and the terminal goes on. *)
Theorem C113_raw_together : forall a k b, (forall x, In x (a ++ b) -> x <> ctrl_bracket) -> (2 <= length k)%nat ->
  fst (raw_loop (a ++ k :: b)) = List.concat (map raw_sends a) ++ k ++ List.concat (map raw_sends b).
Proof. exact raw_together. Qed.
Print Assumptions C113_raw_together.
Example C113_raw_example :
  console [] [KTyped (lit "ATZ" ++ [10]); KGet; KTyped [10; 29]; KGet; KTyped [10]; KGet] = Some ([lit "ATZ" ++ [10]; [10; 29]; [10]], []) /\
  fst (raw_loop [lit "ATZ" ++ [10]; [10; 29]; [10]]) = lit "ATZ" ++ [10; 10; 29; 13].
Proof. split; reflexivity. Qed.

(** gsmterm drops everything read at once that is not a single character or one of the
    keys for moving; *)
Theorem C113_dropped : forall e limit ks w, input_loop e limit ks w = input_loop e limit (filter known ks) w.
Proof. exact only_known. Qed.
Print Assumptions C113_dropped.
(** so of a text that is pasted at most the last character arrives. *)
Theorem C113_pasted : forall e limit s, ~ In 27 s -> exists n ks, console [] (KTyped s :: repeat KGet n) = Some (ks, []) /\
  forall w, input_loop e limit ks w = input_loop e limit (if (length s mod 4 =? 1)%nat then [skipn (length s - 1) s] else []) w.
Proof. exact pasted. Qed.
Print Assumptions C113_pasted.
(** "AT+CSQ" and newline are lost; a letter with an accent (two bytes) too *)
Example C113_pasted_example :
  filter known [lit "AT+C"; [83; 81; 10]] = [] /\ filter known [[195; 169]] = [] /\ filter known [lit "AT+C"; lit "REG?"; [10]; left_key; [65]] = [[10]; left_key; [65]].
Proof. repeat split; reflexivity. Qed.
(** A key for moving that arrives in pieces is taken for Esc and text; *)
Theorem C113_in_pieces : forall e limit k w a b, In k [up_key; down_key; right_key; left_key; delete_key; home_key; end_key] ->
  alive (tm w) = true -> typing (tm w) = false -> at_cursor (tm w) a b ->
  exists w', input_loop e limit (map (fun c => [c]) k) w = (Ok tt, w') /\ at_cursor (tm w') (a ++ tl k) b /\ typing (tm w') = false /\
    exists os, outs w' = outs w ++ os /\ Forall on_screen os.
Proof. exact in_pieces. Qed.
Print Assumptions C113_in_pieces.
(** while a message is typed, it cancels the message. *)
Theorem C113_cancelled : forall e limit k w, In k [up_key; down_key; right_key; left_key; delete_key; home_key; end_key] ->
  alive (tm w) = true -> typing (tm w) = true ->
  exists w', input_loop e limit (map (fun c => [c]) k) w = (Ok tt, w') /\ at_cursor (tm w') (tl k) [] /\ typing (tm w') = false /\
    exists os, outs w' = outs w ++ OSerial [27] :: os /\ Forall on_screen os.
Proof. exact cancelled. Qed.
Print Assumptions C113_cancelled.
Example C113_cancelled_example :
  let t := mk_term (lit "Hello") [] 0 5 true true (lit "GSM> ") (lit "> ") in
  let e := mk_env empty [] (fun _ => None) false in
  console [] [KTyped [27]; KGet; KTyped [91; 68]; KGet] = Some ([[27]; [91; 68]], []) /\
  buf (tm (snd (input_loop e 0 [left_key; lit "!"] (mk_tworld t [] [])))) = lit "Hell!o" /\
  buf (tm (snd (input_loop e 0 [[27]; [91]; [68]; lit "!"] (mk_tworld t [] [])))) = lit "[D!".
Proof. vm_compute. auto. Qed.
