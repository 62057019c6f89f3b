(** What is claimed about keys that arrive together (C113). *)
From Verif Require Import Base TermModel TermSpec KeysModel.

(** everything typed *)
Fixpoint typed_of (l : list kaction) : str :=
  match l with
  | [] => []
  | KTyped s :: l' => s ++ typed_of l'
  | KGet :: l' => typed_of l'
  end.
(** each key is read before the next one is pressed *)
Fixpoint leisurely (ks : list str) : list kaction :=
  match ks with
  | [] => []
  | k :: ks' => KTyped k :: KGet :: leisurely ks'
  end.
(** what a key press sends: one character, or up to four *)
Definition key_press (k : str) : Prop := (1 <= length k <= 4)%nat.
(** what gsmterm knows: single characters and the keys for moving *)
Definition known (k : str) : bool :=
  (length k =? 1)%nat || existsb (str_eqb k) [up_key; down_key; right_key; left_key; delete_key; home_key; end_key].
(** what the raw terminal sends for something read at once *)
Definition raw_sends (k : str) : str := if str_eqb k [10] then [13] else k.
