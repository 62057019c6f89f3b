(** Specification vocabulary for the terminal. *)
From Verif Require Import Base TrieModel TrieSpec TermModel.

(** What the keyboard sends. *)
Definition up_key : str := [27; 91; 65].
Definition down_key : str := [27; 91; 66].
Definition right_key : str := [27; 91; 67].
Definition left_key : str := [27; 91; 68].
Definition delete_key : str := [27; 91; 51; 126].
Definition home_key : str := [27; 79; 72].
Definition end_key : str := [27; 79; 70].
Definition backspace_key : str := [127].
Definition ctrl_z : str := [26].
Definition escape_key : str := [27].
Definition ctrl_bracket : str := [29].
Definition ctrl_d : str := [4].

(** ** The line being edited *)
(** the text before and after the cursor *)
Definition at_cursor (t : term) (a b : str) : Prop := buf t = a ++ b /\ cur t = Z.of_nat (length a).
(** the cursor in the line, the position in the history, at most 100 lines in it *)
Definition inside (t : term) : Prop :=
  (exists a b, at_cursor t a b) /\ 0 <= hpos t <= Z.of_nat (length (hist t)) /\ (length (hist t) <= 100)%nat.
(** characters that can be typed: the visible ones of ASCII and white space (except tab
    and newline, which have other meanings) *)
Definition typable (c : Z) : Prop := 33 <= c <= 126 \/ c = 32 \/ 11 <= c <= 13.
(** what a key does to the text before and after the cursor *)
Inductive edits : str -> str * str -> str * str -> Prop :=
| ed_type c a b : typable c -> edits [c] (a, b) (a ++ [c], b)
| ed_back c a b : edits backspace_key (a ++ [c], b) (a, b)
| ed_back0 b : edits backspace_key ([], b) ([], b)
| ed_del c a b : edits delete_key (a, c :: b) (a, b)
| ed_del0 a : edits delete_key (a, []) (a, [])
| ed_left c a b : edits left_key (a ++ [c], b) (a, c :: b)
| ed_left0 b : edits left_key ([], b) ([], b)
| ed_right c a b : edits right_key (a, c :: b) (a ++ [c], b)
| ed_right0 a : edits right_key (a, []) (a, [])
| ed_home a b : edits home_key (a, b) ([], a ++ b)
| ed_end a b : edits end_key (a, b) (a ++ b, []).
Definition editing_key (k : str) : Prop :=
  (exists c, k = [c] /\ typable c) \/ In k [backspace_key; delete_key; left_key; right_key; home_key; end_key].
(** several keys *)
Inductive edited : list str -> str * str -> str * str -> Prop :=
| eds_nil p : edited [] p p
| eds_key k ks p q r : edits k p q -> edited ks q r -> edited (k :: ks) p r.
(** only the line and the cursor have changed; nothing but the screen was written to *)
Definition same_but_line (t t' : term) : Prop :=
  hist t' = hist t /\ hpos t' = hpos t /\ typing t' = typing t /\ alive t' = alive t /\ prompt t' = prompt t /\ sms_prompt t' = sms_prompt t.
Definition on_screen (o : tout) : Prop := exists s, o = OScreen s.

(** The up and down keys: the history before the current position, the line at it, and
    after it.  After a line has been entered the position is past the last line. *)
Definition recalls (k : str) (t t' : term) : Prop :=
  exists h1 l h2, hist t = h1 ++ l :: h2 /\ hpos t' = Z.of_nat (length h1) /\ at_cursor t' l [] /\
    (k = up_key /\ hpos t = Z.of_nat (length h1) + 1 \/ k = down_key /\ hpos t = Z.of_nat (length h1) - 1) /\
    hist t' = hist t /\ typing t' = typing t /\ alive t' = alive t /\ prompt t' = prompt t /\ sms_prompt t' = sms_prompt t.
(** nothing to go to *)
Definition at_end (k : str) (t : term) : Prop :=
  k = up_key /\ hpos t = 0 \/ k = down_key /\ (hpos t = Z.of_nat (length (hist t)) - 1 \/ hpos t = Z.of_nat (length (hist t))).

(** ** The screen *)
(** One line of a video terminal: its characters, the column of the cursor, and whether
    an escape sequence is being received (ESC, then "[").  Carriage return, newline,
    cursor left and right are obeyed, other control sequences (colours) ignored. *)
Inductive escape := Plain | Escape | Control.
Record screen := mk_screen { row : str; col : nat; state : escape }.
Fixpoint put_at (k : nat) (c : Z) (r : str) : str :=
  match k, r with
  | O, [] => [c]
  | O, _ :: r' => c :: r'
  | S k', [] => 32 :: put_at k' c []
  | S k', x :: r' => x :: put_at k' c r'
  end.
Definition receive (s : screen) (c : Z) : screen :=
  match state s with
  | Plain =>
      if c =? 13 then mk_screen (row s) 0 Plain
      else if c =? 10 then mk_screen [] 0 Plain
      else if c =? 27 then mk_screen (row s) (col s) Escape
      else mk_screen (put_at (col s) c (row s)) (S (col s)) Plain
  | Escape => mk_screen (row s) (col s) (if c =? 91 then Control else Plain)
  | Control =>
      if (64 <=? c) && (c <=? 126) then
        mk_screen (row s) (if c =? 68 then pred (col s) else if c =? 67 then S (col s) else col s) Plain
      else s
  end.
Definition receives (s : screen) (text : str) : screen := fold_left receive text s.
Definition sees (s : screen) (o : tout) : screen := match o with OScreen text => receives s text | _ => s end.
Definition sees_all (s : screen) (os : list tout) : screen := fold_left sees os s.
Definition blanks (s : str) : Prop := Forall (fun c => c = 32) s.
Definition visible (s : str) : Prop := Forall (fun c => 32 <= c <= 126) s.
(** a prompt that shows as [P] *)
Definition displays (p P : str) : Prop :=
  forall r, receives (mk_screen r 0 Plain) p = mk_screen (P ++ skipn (length P) r) (length P) Plain.
(** the screen shows the prompt and the line, with the cursor where it is *)
Definition shows (P : str) (t : term) (s : screen) : Prop :=
  exists rest, row s = P ++ buf t ++ rest /\ blanks rest /\ col s = (length P + Z.to_nat (cur t))%nat /\ state s = Plain.
(** or the screen is blank: a line has been entered and nothing typed yet *)
Definition shows_or_blank (P : str) (t : term) (s : screen) : Prop :=
  shows P t s \/ buf t = [] /\ cur t = 0 /\ blanks (row s) /\ col s = 0%nat /\ state s = Plain.
Definition current_prompt (t : term) : str := if typing t then sms_prompt t else prompt t.
(** the keys that edit the line, among them those typing visible characters, and the
    history keys *)
Definition line_key (k : str) : Prop :=
  (exists c, k = [c] /\ 32 <= c <= 126) \/ In k [backspace_key; delete_key; left_key; right_key; home_key; end_key; up_key; down_key].

(** ** The end *)
Definition exit_key (k : str) : Prop := k = ctrl_bracket \/ k = ctrl_d.
(** how often the port is closed *)
Definition closings (os : list tout) : nat := length (filter (fun o => match o with OClose => true | _ => false end) os).
(** the keys that do something: newline, tab and those above, and what can be typed *)
Definition has_meaning (k : str) : Prop :=
  In k [ctrl_bracket; ctrl_d; left_key; right_key; up_key; down_key; [10]; [9]; ctrl_z; escape_key; backspace_key; delete_key; home_key; end_key] \/
  exists c, k = [c] /\ typable c.
