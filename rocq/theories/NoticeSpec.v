(** Specification vocabulary for the lines the terminal prints. *)
From Verif Require Import Base TrieModel TrieSpec TermModel TermSpec NoticeModel.

(** A video terminal whose lines scroll up: the rows above the current one (the last is
    the one just above it). *)
Record display := mk_display { above : list str; now : screen }.
Definition gets (d : display) (c : Z) : display :=
  match state (now d) with
  | Plain => mk_display (if c =? 10 then above d ++ [row (now d)] else above d) (receive (now d) c)
  | _ => mk_display (above d) (receive (now d) c)
  end.
Definition watches (d : display) (text : str) : display := fold_left gets text d.
Definition watches_all (d : display) (os : list tout) : display :=
  fold_left (fun d o => match o with OScreen text => watches d text | _ => d end) os d.
(** the rows show these lines, each from its beginning, with nothing else *)
Definition rows_show (lines rows : list str) : Prop := Forall2 (fun line r => exists rest, r = line ++ rest /\ blanks rest) lines rows.
(** only the prompt of command lines has changed *)
Definition same_but_prompt (t t' : term) : Prop :=
  buf t' = buf t /\ cur t' = cur t /\ hist t' = hist t /\ hpos t' = hpos t /\ typing t' = typing t /\ alive t' = alive t /\ sms_prompt t' = sms_prompt t.

(** what happens to a terminal: keys, and lines from the modem *)
Inductive happening := Key (k : str) | Notice (lines : list str).
Definition happens (e : env) (limit : nat) (h : happening) : T unit :=
  match h with Key k => press e limit k | Notice lines => handleModemNotification e lines end.
Fixpoint happen (e : env) (limit : nat) (hs : list happening) : T unit :=
  match hs with [] => tret tt | h :: hs' => happens e limit h ;> happen e limit hs' end.
Definition ordinary (h : happening) : Prop :=
  match h with Key k => line_key k | Notice lines => lines <> [] /\ Forall visible lines end.

(** a text in the colour with this number *)
Definition in_colour (number : string) (text : str) : str := 27 :: lit "[1;" ++ lit number ++ lit "m" ++ text ++ 27 :: lit "[0m".
