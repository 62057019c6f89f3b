(** What the modem's errors look like to the application. *)
From Verif Require Import Base ModemCore ModemSpec ErrorModel.

(** the error numbers that have a class of their own, and the remark in their text *)
Definition security_number (n : Z) : Prop := n = 11 \/ n = 12 \/ n = 16.
Inductive own_class (family : str) : Z -> cls -> str -> Prop :=
| oc_pin : family = lit "CME" -> own_class family 11 CPin (lit " (SIM card PIN is required)")
| oc_puk : family = lit "CME" -> own_class family 12 CPuk (lit " (PUK required (SIM locked))")
| oc_wrong : family = lit "CME" -> own_class family 16 CWrongPin (lit " (Incorrect PIN entered)")
| oc_smsc : family = lit "CMS" -> own_class family 330 CSmsc (lit " (SMSC number not set)").
Definition ordinary_number (family : str) (n : Z) : Prop := forall c r, ~ own_class family n c r.
(** the text of an error *)
Definition error_text (family : str) (n : Z) (t : str) : Prop :=
  exists ds remark, decimal n ds /\ t = family ++ lit " " ++ ds ++ remark /\
    ((exists c, own_class family n c remark) \/ ordinary_number family n /\ remark = []).
(** it carries the command, the family and the number *)
Definition carries (o : object) (command : str) (family : str) (n : Z) : Prop :=
  attr o (lit "command") = Some (AStr command) /\ attr o (lit "type") = Some (AStr family) /\ attr o (lit "code") = Some (AInt n).

(** how many positional arguments a class takes *)
Definition takes (c : cls) (n : nat) : Prop :=
  match c with
  | CBase | CInvalid | CEncoding => True
  | CTimeout => (n <= 1)%nat
  | CInterrupted => (n = 1 \/ n = 2)%nat
  | CCommand => (n <= 3)%nat
  | CCme | CSecurity | CCms => n = 2%nat
  | CPin | CWrongPin | CPuk | CSmsc => (n = 1 \/ n = 2)%nat
  end.
(** a class for one security number, called with another security number: the object is
    of the other's class *)
Definition astray (c : cls) (args : list arg) : Prop :=
  exists a n rest d r, args = a :: AInt n :: rest /\ (c = CPin \/ c = CPuk \/ c = CWrongPin) /\ own_class (lit "CME") n d r /\ d <> c.
(** the clauses [except d] that catch an error of class [c] *)
Definition handlers (c : cls) : list cls :=
  match c with
  | CBase => [CBase]
  | CTimeout => [CTimeout; CBase]
  | CInvalid => [CInvalid; CBase]
  | CInterrupted => [CInterrupted; CInvalid; CBase]
  | CCommand => [CCommand; CBase]
  | CCme => [CCme; CCommand; CBase]
  | CSecurity => [CSecurity; CCme; CCommand; CBase]
  | CPin => [CPin; CSecurity; CCme; CCommand; CBase]
  | CWrongPin => [CWrongPin; CSecurity; CCme; CCommand; CBase]
  | CPuk => [CPuk; CSecurity; CCme; CCommand; CBase]
  | CCms => [CCms; CCommand; CBase]
  | CSmsc => [CSmsc; CCms; CCommand; CBase]
  | CEncoding => [CEncoding; CBase]
  end.

(** str() of an argument *)
Definition shown_as (a : arg) (t : str) : Prop :=
  match a with
  | ANone => t = lit "None"
  | AStr s => t = s
  | AInt n => if 0 <=? n then decimal n t else exists ds, decimal (- n) ds /\ t = lit "-" ++ ds
  | AObj _ s => t = s
  end.
