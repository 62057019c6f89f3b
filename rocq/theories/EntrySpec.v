(** Specification vocabulary for the keys TAB and Enter of the terminal, and for typing a
    message. *)
From Verif Require Import Base TrieModel TrieSpec TermModel TermSpec.

(** ** Text *)
Definition white (c : Z) : Prop := 9 <= c <= 13 \/ c = 32.
(** [t] is [s] without the white space around it *)
Definition trimmed (s t : str) : Prop :=
  exists a b, s = a ++ t ++ b /\ Forall white a /\ Forall white b /\
    match t with [] => True | c :: _ => ~ white c end /\ ~ (exists t' c, t = t' ++ [c] /\ white c).
(** [y] is [x], in capitals *)
Definition capital (x y : Z) : Prop := if (97 <=? x) && (x <=? 122) then y = x - 32 else y = x.
Definition capitals (s t : str) : Prop := Forall2 capital s t.
(** the word [w] (in small letters) spelled with any letters *)
Definition spells (w s : str) : Prop := Forall2 (fun x y => y = x \/ 97 <= x <= 122 /\ y = x - 32) w s.
Definition same_word (a b : str) : Prop := exists w, Forall (fun c => ~ 65 <= c <= 90) w /\ spells w a /\ spells w b.
Definition begins (w s : str) : Prop := exists a b, s = a ++ b /\ spells w a.

(** ** TAB *)
(** the command a line is about *)
Definition command_line (line p : str) : Prop := exists s, trimmed line s /\ capitals s p.
Definition matching (e : env) (p k : str) : Prop := present (completion e) k /\ prefix_of p k.
(** nothing but the screen has changed *)
Definition only_shows (w w' : tworld) : Prop :=
  tm w' = tm w /\ answers w' = answers w /\ exists os, outs w' = outs w ++ os /\ Forall (fun o => on_screen o \/ o = OText) os.
(** The syntax of a command is shown: if it has a help text with values, each with a name. *)
Definition shows_syntax (e : env) (c : str) (r : res unit) (w w' : tworld) : Prop :=
  exists h, stored (completion e) c h /\
    match h with
    | Some h => 
        if h_fields h <=? 2 then r = Ok tt /\ w' = w
        else if existsb (Z.eqb 0) (match h_values h with Some l => l | None => [] end) then r = Err IndexError /\ w' = w
        else r = Ok tt /\ only_shows w w' /\ In OText (skipn (length (outs w)) (outs w'))
    | None => r = Ok tt /\ w' = w
    end.
(** the line has been replaced *)
Definition replaced (line : str) (w w' : tworld) : Prop :=
  at_cursor (tm w') line [] /\ same_but_line (tm w) (tm w') /\ answers w' = answers w /\
  exists os, outs w' = outs w ++ os /\ Forall (fun o => on_screen o \/ o = OText) os.

(** ** Enter *)
Definition asks_help (s : str) : Prop := (length s > 2)%nat /\ ((exists r, s = 63 :: r) \/ (exists r, s = r ++ [63; 63])) \/ begins (lit "help") s.
(** [s] lists commands or categories *)
Definition lists (e : env) (s : str) : Prop :=
  spells (lit "lscat") s \/ spells (lit "ls") s \/
  begins (lit "ls") s /\ exists a c k, s = a ++ [32] ++ c /\ ~ In 32 a /\ In k (categories e) /\ same_word c k.
(** [s] loads a file *)
Definition loads (s : str) (name : str) : Prop :=
  ~ asks_help s /\ begins (lit "load") s /\ exists a n, s = a ++ [32] ++ n /\ ~ In 32 a /\ trimmed n name.
Definition starts_sms (s : str) : Prop := ~ asks_help s /\ begins (lit "at+cmgs=") s.
(** everything else is a command for the modem *)
Definition command (e : env) (s : str) : Prop :=
  s <> [] /\ ~ asks_help s /\ ~ lists e s /\ ~ (exists name, loads s name) /\ ~ starts_sms s.
(** the last hundred *)
Definition last_hundred (h : list str) : list str := skipn (length h - 100) h.
(** lines have been taken: the line is empty now, they are in the history, and that is what
    has changed *)
Definition entered (ss : list str) (t t' : term) : Prop :=
  at_cursor t' [] [] /\ hist t' = last_hundred (hist t ++ ss) /\ hpos t' = match ss with [] => hpos t | _ => Z.of_nat (length (hist t')) end /\
  alive t' = alive t /\ prompt t' = prompt t.
(** what has been written to the port *)
Definition to_port (os : list tout) : str :=
  flat_map (fun o => match o with OSerial s => s | OCommand s => s | _ => [] end) os.
(** The commands in a file: lines that are not blank and do not begin with "#". *)
Inductive script : list str -> list str -> Prop :=
| sc_nil : script [] []
| sc_blank l ls cs : trimmed l [] -> script ls cs -> script (l :: ls) cs
| sc_comment l r ls cs : trimmed l (35 :: r) -> script ls cs -> script (l :: ls) cs
| sc_command l c ls cs : trimmed l c -> c <> [] -> ~ (exists r, c = 35 :: r) -> script ls cs -> script (l :: ls) (c :: cs).

(** ** Typing a message *)
(** the text sent so far, the line before and after the cursor *)
Inductive typed : list str -> str * (str * str) -> str * (str * str) -> Prop :=
| ty_nil p : typed [] p p
| ty_key k ks s p q r : edits k p q -> typed ks (s, q) r -> typed (k :: ks) (s, p) r
| ty_enter ks s a b r : typed ks (s ++ a, ([], b)) r -> typed ([10] :: ks) (s, (a, b)) r.
(** the end of a message *)
Definition ended (t t' : term) : Prop :=
  at_cursor t' [] [] /\ typing t' = false /\ hist t' = hist t /\ hpos t' = hpos t /\ alive t' = alive t /\ prompt t' = prompt t /\ sms_prompt t' = sms_prompt t.
