(** Specification vocabulary for user data headers that say how the text is to be
    read, or that do not fit (TS 23.040 section 9.2.3.24, TS 23.038 annex A). *)
From Verif Require Import Base DateModel PduModel PduSpec SmsSpec DeliverSpec SubmitSpec CodingSpec.

(** a result without the header *)
Definition drop_header (r : res sms) : res sms :=
  match r with
  | Ok (mk_sms smsc n (SmsDeliver a p t _ text)) => Ok (mk_sms smsc n (SmsDeliver a p t None text))
  | Ok (mk_sms smsc n (SmsSubmit r a p v _ text)) => Ok (mk_sms smsc n (SmsSubmit r a p v None text))
  | x => x
  end.

(** ** Septets read with the tables a header names (TS 23.038 section 6.2.1.2): the
    locking shift table [basic] in place of the default alphabet, the single shift
    table [ext] in place of the extension table *)
Inductive reading_with (basic : list (option Z)) (ext : list (Z * Z)) : list Z -> str -> Prop :=
| rw_nil : reading_with basic ext [] []
| rw_basic i c s t : i <> 0x1B%nat -> nth_error basic i = Some (Some c) -> reading_with basic ext s t -> reading_with basic ext (Z.of_nat i :: s) (c :: t)
| rw_ext p c s t : In (p, c) ext -> reading_with basic ext s t -> reading_with basic ext (0x1B :: p :: s) (c :: t).

(** the same characters by the tables of this library *)
Inductive default_reading : list Z -> str -> Prop :=
| dr_nil : default_reading [] []
| dr_basic i c s t : nth_error ts23038_basic i = Some (Some c) -> c <> 0xA7 -> default_reading s t -> default_reading (Z.of_nat i :: s) (c :: t)
| dr_section s t : default_reading s t -> default_reading (0x5F :: s) (0x60 :: t)
| dr_ext p c s t : In (p, c) ts23038_ext -> c <> 0x0C -> default_reading s t -> default_reading (0x1B :: p :: s) (c :: t).

(** Turkish (language 1): the single shift table (A.2.1), and what the locking
    shift table (A.3.1) has in other places than the default alphabet *)
Definition turkish_ext : list (Z * Z) :=
  ts23038_ext ++ [(0x47, 0x11E); (0x49, 0x130); (0x53, 0x15E); (0x63, 0xE7); (0x67, 0x11F); (0x69, 0x131); (0x73, 0x15F)].
Definition turkish_changes : list (Z * Z) :=
  [(0x04, 0x20AC); (0x07, 0x131); (0x0B, 0x11E); (0x0C, 0x11F); (0x1C, 0x15E); (0x1D, 0x15F); (0x40, 0x130); (0x60, 0xE7)].
Definition turkish_basic : list (option Z) :=
  map (fun i => match find (fun p => fst p =? Z.of_nat i) turkish_changes with Some p => Some (snd p) | None => nth i ts23038_basic None end) (seq 0 128).
(** the information elements that name the tables of a language *)
Definition single_shift (language : Z) : element := mk_element 0x24 [language].
Definition locking_shift (language : Z) : element := mk_element 0x25 [language].

(** the characters this library can read from septets *)
Definition default_char (c : Z) : Prop :=
  (In (Some c) ts23038_basic /\ c <> 0xA7) \/ ((exists p, In (p, c) ts23038_ext) /\ c <> 0x0C) \/ c = 0x60.

(** septets of which the last, an '@' that ends an octet, may be lost *)
Definition but_final_at (fill : Z) (s s' : list Z) : Prop :=
  s' = s \/ ((fill + 7 * len s) mod 8 = 0 /\ s = s' ++ [0]).
(** the septets of [s] that are read after a header of [h] octets *)
Definition septets_after (h : Z) (s s' : list Z) : Prop :=
  if fill_bits h =? 0 then but_final_at 7 (tl s) s' else but_final_at (fill_bits h) s s'.

(** ** Headers that do not fit *)
(** elements of a header without its length octet *)
Definition body_octets (es : list element) : list Z := List.concat (map element_octets es).
(** an element of a known kind that does not have its length: the exception of the
    library, if there is one *)
Definition element_exception (e : element) : option exn :=
  if (el_id e =? 0) && negb (len (el_data e) =? 3) then Some ValueError
  else if (el_id e =? 4) && negb (len (el_data e) =? 2) then Some ValueError
  else if ((el_id e =? 8) || (el_id e =? 5)) && (len (el_data e) <? 4) then Some IndexError
  else None.
(** elements that are read *)
Definition element_read (e : element) : Prop :=
  in_octet (el_id e) /\ octets_ok (el_data e) /\ len (el_data e) <= 255 /\ element_exception e = None.
