(** What is asked of assignments of smsTextMode made while other threads use the modem. *)
From Verif Require Import Base ModeModel.

(** an assignment that has found a difference and has not returned *)
Definition changing (p : place) : bool :=
  match p with SCommand _ | SStore _ | SMode | SText | SText1 | SText2 | SPdu | SPdu1 => true | _ => false end.
(** a call that uses the mode and is between its first step and its end *)
Definition in_use (p : place) : bool :=
  match p with UCommand _ _ | RLook _ | RText _ | RText2 _ | RPdu _ => true | _ => false end.
Definition assignment (p : place) : bool := match p with STest _ => true | _ => false end.

Definition count (f : place -> bool) (s : mstate) : nat := length (filter f (threads s)).
Definition any (s : mstate) : Prop := True.
(** no assignment is being carried out; at most one is *)
Definition no_change (s : mstate) : Prop := count changing s = 0%nat.
Definition one_change (s : mstate) : Prop := (count changing s <= 1)%nat.
(** every thread is about to begin or has ended *)
Definition rested (s : mstate) : Prop := no_change s /\ count in_use s = 0%nat.

(** the regular expressions for the mode that the program believes in *)
Definition compiled (s : mstate) : Prop := if attr s then deliver_re s = true /\ report_re s = true else pdu_re s = true.
(** as connect() leaves it (modem.py:293-294): the modem is in the mode the program
    believes in *)
Definition settled (s : mstate) : Prop :=
  rested s /\ attr s = mode s /\ compiled s /\ (deliver_re s = true -> report_re s = true).

(** a command in the form for the mode the modem is in; a response taken for what it is *)
Definition right (l : mlabel) : Prop :=
  match l with Used form actual => form = actual | Taken answer form e => answer = form /\ e = Fine | _ => True end.
Definition wrong (l : mlabel) : Prop :=
  match l with Used form actual => form <> actual | Taken answer form e => answer <> form /\ e <> Fine | _ => True end.
