(** Specification vocabulary for util.py. *)
From Verif Require Import Base DateModel PduSpec.

(** Text-mode time stamp (3GPP TS 27.005, <scts>): "yy/MM/dd,hh:mm:ss±zz". *)
Definition dec2 (n : Z) : str := [48 + n / 10; 48 + n mod 10].
Definition zone_text (neg : bool) (n : Z) : str := (if neg then 45 else 43) :: dec2 n.
Definition date_text (y mo d h mi s : Z) : str :=
  dec2 (y mod 100) ++ lit "/" ++ dec2 mo ++ lit "/" ++ dec2 d ++ lit "," ++
  dec2 h ++ lit ":" ++ dec2 mi ++ lit ":" ++ dec2 s.

(** the text of a number in a date: two digits, or one for a number below ten, before
    which a day may have a space *)
Definition field_text (spaced : bool) (v : Z) (txt : str) : Prop :=
  txt = dec2 v \/ (v <= 9 /\ (txt = [48 + v] \/ (spaced = true /\ txt = [32; 48 + v]))).
Definition read_as (date : str) (y mo d h mi s : Z) : Prop :=
  exists tmo td th tmi ts, field_text false mo tmo /\ field_text true d td /\ field_text false h th /\ field_text false mi tmi /\ field_text false s ts /\
    date = dec2 (y mod 100) ++ lit "/" ++ tmo ++ lit "/" ++ td ++ lit "," ++ th ++ lit ":" ++ tmi ++ lit ":" ++ ts.

(** [x] is at some place in [l], and nothing before it satisfies [P] *)
Definition first_such {A} (P : A -> Prop) (l : list A) (x : A) : Prop :=
  exists before after, l = before ++ x :: after /\ P x /\ forall y, In y before -> ~ P y.
