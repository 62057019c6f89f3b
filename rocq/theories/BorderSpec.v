(** Vocabulary: where an address field ends. *)
From Verif Require Import Base PduModel PduSpec SmsSpec DeliverSpec.

(** an octet whose upper half is the filler 1111 *)
Definition filled (o : Z) : Prop := 240 <= o < 256.
Definition full (o : Z) : Prop := 0 <= o < 240.
(** the same message (or the same exception), perhaps another service centre *)
Definition same_message (x y : res sms) : Prop :=
  match x, y with Ok m, Ok m' => sms_type m = sms_type m' | Err e, Err e' => e = e' | _, _ => False end.
(** the length of the message taken to be smaller *)
Definition shorter (n : Z) (x : res sms) : res sms :=
  match x with Ok m => Ok (mk_sms (sms_smsc m) (sms_tpdu_length m - n) (sms_type m)) | Err e => Err e end.
