(** Properties of the terminal, continued: TAB, Enter, typing a message, the raw terminal,
    and the table of commands. *)
From Verif Require Import Base TrieModel TrieSpec TrieProofs TrieFinal TermModel TermSpec TermProofs EntrySpec EntryProofs EnterProofs CommandData TableSpec TableProofs.

(** the terminal as it is, with two files *)
Definition script_file : list str := [lit "ATZ"; lit "  # a comment"; lit ""; lit " AT+CREG? "].
Definition gsmterm : env := mk_env command_trie CATEGORIES
  (fun f => if str_eqb f (lit "init.txt") then Some script_file else if str_eqb f (lit "sms.txt") then Some [lit "AT+CMGS=""123"""; lit "Hello"] else None) false.
Definition line_of (s : string) : tworld :=
  mk_tworld (mk_term (lit s) [] 0 (zlen (lit s)) false true (lit "GSM> ") (lit "> ")) [Some [lit "> "]] [].
Lemma line_inside s : inside (tm (line_of s)).
Proof. apply inside_iff. cbn. unfold zlen. cbn. lia. Qed.

(** C67: TAB.  Any table of completions: no match, *)
Theorem C67_no_match : forall e ops, completion e = run ops -> forall limit w p, command_line (buf (tm w)) p -> (forall k, ~ matching e p k) ->
  (p = [] -> press e limit [9] w = (Err IndexError, w)) /\
  (forall c, p = c ++ [61] -> exists r w', press e limit [9] w = (r, w') /\
     (present (completion e) c -> shows_syntax e c r w w') /\ (~ present (completion e) c -> r = Err KeyError /\ w' = w)) /\
  (p <> [] -> ~ (exists c, p = c ++ [61]) -> press e limit [9] w = (Ok tt, w)).
Proof. exact tab_none. Qed.
Print Assumptions C67_no_match.
(** one match, *)
Theorem C67_one_match : forall e ops, completion e = run ops -> forall limit w p k, command_line (buf (tm w)) p -> matching e p k -> (forall k', matching e p k' -> k' = k) ->
  (k = p -> exists r w', press e limit [9] w = (r, w') /\ shows_syntax e k r w w') /\
  (k <> p -> exists w', press e limit [9] w = (Ok tt, w') /\ replaced k w w').
Proof. exact tab_one. Qed.
Print Assumptions C67_one_match.
(** several; the line, as it is, is replaced by the longest common prefix (C34) *)
Theorem C67_matches : forall e ops, completion e = run ops -> forall limit w p k1 k2, command_line (buf (tm w)) p -> matching e p k1 -> matching e p k2 -> k1 <> k2 ->
  exists line w', press e limit [9] w = (Ok tt, w') /\ replaced line w w' /\ line = t_longestCommonPrefix (run ops) (buf (tm w)).
Proof. exact tab_many. Qed.
Print Assumptions C67_matches.
(** every line is about one command *)
Theorem C67_line : forall line, exists! p, command_line line p.
Proof.
  exact (fun line => ex_intro _ (tupper (tstrip line)) (conj (ex_intro _ (tstrip line) (conj (tstrip_trimmed line) (proj2 (tupper_capitals _ _) eq_refl)))
    (fun p H => match H with ex_intro _ s (conj T C) => eq_sym (eq_trans (proj1 (tupper_capitals s p) C) (f_equal tupper (trimmed_tstrip line s T))) end))).
Qed.
Print Assumptions C67_line.
(** small letters are completed when there is one match only *)
Example C67_example :
  buf (tm (snd (press gsmterm 0 [9] (line_of " at+creg")))) = lit " at+creg" /\ buf (tm (snd (press gsmterm 0 [9] (line_of "at+cimi")))) = lit "at+cimi" /\
  buf (tm (snd (press gsmterm 0 [9] (line_of "at+cim")))) = lit "AT+CIMI" /\ buf (tm (snd (press gsmterm 0 [9] (line_of "at+c")))) = [] /\
  buf (tm (snd (press gsmterm 0 [9] (line_of "AT+CMG")))) = lit "AT+CMG" /\ fst (press gsmterm 0 [9] (line_of "AT+NONE=")) = Err KeyError.
Proof. vm_compute. repeat split. Qed.

(** C68: Enter, when no message is being typed.  A command is sent once, then the end of
    the line; *)
Theorem C68_command : forall e limit w s, inside (tm w) -> typing (tm w) = false -> trimmed (buf (tm w)) s -> command e s ->
  exists w', press e limit [10] w = (Ok tt, w') /\ entered [s] (tm w) (tm w') /\ typing (tm w') = false /\ sms_prompt (tm w') = sms_prompt (tm w) /\ answers w' = answers w /\
    outs w' = outs w ++ [OSerial s; OSerial [13]; OScreen [10]].
Proof. exact enter_command. Qed.
Print Assumptions C68_command.
(** of a blank line, a request for help and a list nothing is sent; *)
Theorem C68_blank : forall e limit w, inside (tm w) -> typing (tm w) = false -> trimmed (buf (tm w)) [] ->
  exists w', press e limit [10] w = (Ok tt, w') /\ entered [] (tm w) (tm w') /\ typing (tm w') = false /\ answers w' = answers w /\ to_port (outs w') = to_port (outs w).
Proof. exact enter_blank. Qed.
Print Assumptions C68_blank.
Theorem C68_local : forall e limit w s, inside (tm w) -> typing (tm w) = false -> trimmed (buf (tm w)) s -> asks_help s \/ lists e s ->
  exists r w' os, press e limit [10] w = (r, w') /\ entered [s] (tm w) (tm w') /\ typing (tm w') = false /\ answers w' = answers w /\
    outs w' = outs w ++ os /\ Forall (fun o => on_screen o \/ o = OText) os.
Proof. exact enter_local. Qed.
Print Assumptions C68_local.
(** of a file the commands are sent in order; *)
Theorem C68_file : forall e limit w s name lines cs, inside (tm w) -> typing (tm w) = false -> trimmed (buf (tm w)) s -> loads s name ->
  files e name = Some lines -> script lines cs -> Forall (command e) cs ->
  exists w' os, press e (S limit) [10] w = (Ok tt, w') /\ entered (s :: cs) (tm w) (tm w') /\ typing (tm w') = false /\ answers w' = answers w /\
    outs w' = outs w ++ os /\ to_port os = flat_map (fun c => c ++ [13]) cs.
Proof. exact enter_load. Qed.
Print Assumptions C68_file.
Theorem C68_no_file : forall e limit w s name, inside (tm w) -> typing (tm w) = false -> trimmed (buf (tm w)) s -> loads s name -> files e name = None ->
  exists w' os, press e limit [10] w = (Ok tt, w') /\ entered [s] (tm w) (tm w') /\ typing (tm w') = false /\ answers w' = answers w /\
    outs w' = outs w ++ os /\ Forall (fun o => on_screen o \/ o = OText) os.
Proof. exact enter_no_file. Qed.
Print Assumptions C68_no_file.
(** AT+CMGS is sent and the answer waited for. *)
Theorem C68_sms : forall e limit w s, inside (tm w) -> typing (tm w) = false -> trimmed (buf (tm w)) s -> starts_sms s ->
  exists r w' os, press e limit [10] w = (r, w') /\ entered [s] (tm w) (tm w') /\ answers w' = tl (answers w) /\ outs w' = outs w ++ OScreen [10] :: OCommand (s ++ [13]) :: os /\
    Forall (fun o => on_screen o \/ o = OText) os /\
    match answers w with
    | Some (l :: _) :: _ => r = Ok tt /\ typing (tm w') = true /\ sms_prompt (tm w') = color e COLOR_GREEN l
    | Some [] :: _ => r = Err IndexError /\ typing (tm w') = true /\ sms_prompt (tm w') = sms_prompt (tm w)
    | _ => r = Ok tt /\ typing (tm w') = false /\ sms_prompt (tm w') = sms_prompt (tm w)
    end.
Proof. exact enter_sms. Qed.
Print Assumptions C68_sms.
(** there are no other lines *)
Theorem C68_all : forall e s, s = [] \/ asks_help s \/ lists e s \/ (exists name, loads s name) \/ starts_sms s \/ command e s.
Proof. exact line_cases. Qed.
Print Assumptions C68_all.
Example C68_example_command : command gsmterm (lit "AT+CREG?") /\ command gsmterm (lit "ls nothing") /\ ~ command gsmterm (lit "LS sms").
Proof. rewrite <- !command_b. vm_compute. repeat split; discriminate. Qed.
Example C68_example_file : let w := snd (press gsmterm 1 [10] (line_of "load init.txt")) in
  to_port (outs w) = lit "ATZ" ++ [13] ++ lit "AT+CREG?" ++ [13] /\ hist (tm w) = [lit "load init.txt"; lit "ATZ"; lit "AT+CREG?"].
Proof. vm_compute. auto. Qed.
(** a file that sends a message: after AT+CMGS the text is not sent, but stays in the line *)
Example C68_example_sms_file : let w := snd (press gsmterm 1 [10] (line_of "load sms.txt")) in
  to_port (outs w) = lit "AT+CMGS=""123""" ++ [13] /\ typing (tm w) = true /\ buf (tm w) = lit "Hello" /\ cur (tm w) = 0.
Proof. vm_compute. auto. Qed.

(** C69: while a message is typed, Enter sends what is before the cursor, without a
    newline; *)
Theorem C69_typing : forall e limit keys a b sent a' b' w, typed keys ([], (a, b)) (sent, (a', b')) ->
  at_cursor (tm w) a b -> typing (tm w) = true -> alive (tm w) = true ->
  exists w' os, input_loop e limit keys w = (Ok tt, w') /\ at_cursor (tm w') a' b' /\ same_but_line (tm w) (tm w') /\ answers w' = answers w /\
    outs w' = outs w ++ os /\ to_port os = sent.
Proof.
  exact (fun e limit keys a b sent a' b' w H At Ty Al => match sms_keys e limit keys [] (a, b) (sent, (a', b')) H w At Ty Al with
    ex_intro _ w' (ex_intro _ os (conj R (conj A (conj Sm (conj An (conj Os P)))))) => ex_intro _ w' (ex_intro _ os (conj R (conj A (conj Sm (conj An (conj Os (eq_sym P))))))) end).
Qed.
Print Assumptions C69_typing.
(** Ctrl-Z sends the rest of the line and itself, Esc only itself *)
Theorem C69_ctrl_z : forall e limit w, typing (tm w) = true ->
  exists w' os, press e limit ctrl_z w = (Ok tt, w') /\ ended (tm w) (tm w') /\ answers w' = answers w /\ outs w' = outs w ++ os /\ to_port os = buf (tm w) ++ [26].
Proof. exact sms_ctrl_z. Qed.
Print Assumptions C69_ctrl_z.
Theorem C69_esc : forall e limit w, typing (tm w) = true ->
  exists w' os, press e limit escape_key w = (Ok tt, w') /\ ended (tm w) (tm w') /\ answers w' = answers w /\ outs w' = outs w ++ os /\ to_port os = [27].
Proof. exact sms_esc. Qed.
Print Assumptions C69_esc.
Theorem C69_not_typing : forall e limit w k, typing (tm w) = false -> k = ctrl_z \/ k = escape_key -> press e limit k w = (Ok tt, w).
Proof. exact not_typing. Qed.
Print Assumptions C69_not_typing.
(** "Hi", Enter, "you", Ctrl-Z: the lines are joined *)
Example C69_example :
  let w := snd (input_loop gsmterm 0 ([[10]] ++ map (fun c => [c]) (lit "Hi") ++ [[10]] ++ map (fun c => [c]) (lit "you") ++ [ctrl_z]) (line_of "AT+CMGS=""123""")) in
  to_port (outs w) = lit "AT+CMGS=""123""" ++ [13] ++ lit "Hiyou" ++ [26] /\ typing (tm w) = false /\
  typed (map (fun c => [c]) (lit "H") ++ [[10]]) ([], ([], [])) (lit "H", ([], [])).
Proof. vm_compute. repeat split. apply (ty_key [72] [[10]] [] ([], []) ([72], [])); [apply (ed_type 72 [] []); unfold typable; lia|]. apply ty_enter. apply ty_nil. Qed.

(** C70: the raw terminal passes on all keys before Ctrl-], newline as carriage return, and shows them *)
Theorem C70_raw : forall keys exit rest, ~ In ctrl_bracket keys -> exit = [] \/ exit = ctrl_bracket :: rest ->
  raw_loop (keys ++ exit) = (flat_map (fun k => if str_eqb k [10] then [13] else k) keys, List.concat keys).
Proof. exact raw_run. Qed.
Print Assumptions C70_raw.
Example C70_example : raw_loop [lit "A"; lit "T"; [10]; up_key; ctrl_bracket; lit "X"] = (lit "AT" ++ [13; 27; 91; 65], lit "AT" ++ [10; 27; 91; 65]).
Proof. reflexivity. Qed.

(** C71: every command of atcommands.py is in the completions, with its last entry, and
    nothing else; *)
Theorem C71_table : forall k v, stored command_trie k v <-> defined_as k v.
Proof. exact table_stored. Qed.
Print Assumptions C71_table.
(** help and lists never fail; *)
Theorem C71_help : forall e limit w s, completion e = command_trie -> inside (tm w) -> typing (tm w) = false -> trimmed (buf (tm w)) s -> asks_help s \/ lists e s ->
  exists w', press e limit [10] w = (Ok tt, w') /\ entered [s] (tm w) (tm w').
Proof. exact table_local. Qed.
Print Assumptions C71_help.
(** completion fails only for a command that is not in it, with "="; *)
Theorem C71_completion : forall e limit w p, completion e = command_trie -> command_line (buf (tm w)) p ->
  (exists w', press e limit [9] w = (Ok tt, w')) \/
  press e limit [9] w = (Err KeyError, w) /\ exists c, p = c ++ [61] /\ (forall v, ~ defined_as c v) /\ forall k v, defined_as k v -> ~ prefix_of p k.
Proof. exact table_tab. Qed.
Print Assumptions C71_completion.
(** and of a line in capitals that several commands begin with nothing is lost, but for
    one: "AT+CRE" disappears. *)
Theorem C71_several : forall e limit w p k1 k2 v1 v2, completion e = command_trie -> command_line p p -> buf (tm w) = p ->
  defined_as k1 v1 -> defined_as k2 v2 -> prefix_of p k1 -> prefix_of p k2 -> k1 <> k2 ->
  exists line w', press e limit [9] w = (Ok tt, w') /\ replaced line w w' /\ (line = [] <-> p = lit "AT+CRE") /\ (p <> lit "AT+CRE" -> prefix_of p line) /\
    forall k v, defined_as k v -> prefix_of p k -> prefix_of line k.
Proof. exact table_many. Qed.
Print Assumptions C71_several.
Example C71_example : buf (tm (snd (press gsmterm 0 [9] (line_of "AT+CRE")))) = [] /\ buf (tm (snd (press gsmterm 0 [9] (line_of "AT+CPI")))) = lit "AT+CPIN" /\
  t_get command_trie (lit "AT+CREG") = Ok (Some (mk_help (lit "Network Service") (lit "Network Registration") 5 (Some [2]) (Some [2; 2; 2]))) /\
  length (t_keys command_trie None) = 149%nat.
Proof. vm_compute. repeat split. Qed.
