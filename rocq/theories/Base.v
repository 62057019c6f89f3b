(** Python primitives shared by all model files.

    Values: Python [int] is [Z]; a Python [str] is the list of its code points;
    a [bytearray] is a list of integers in 0..255 (a Python [str] read from the
    serial port likewise); an iterator is the list of the items not yet
    consumed.  Exceptions are values. *)
From Coq Require Export List ZArith Lia Bool String Ascii.
Export ListNotations.
Global Open Scope Z_scope.
Global Open Scope list_scope.

Notation length := List.length.

Definition str := list Z.
Definition bytes := list Z.

(** Exceptions raised by the modelled code: Python built-ins first, then those
    of gsmmodem/exceptions.py (lines as cited). *)
Inductive exn : Type :=
| ValueError | TypeError | IndexError | KeyError | StopIteration | AttributeError
| OutOfFuel                                      (* not a Python exception: a fuelled model function ran out of fuel; proved unreachable *)
| EncodingError                                  (* exceptions.py:133-134 *)
| TimeoutException (data : option (list str))    (* exceptions.py:7-13 *)
| InvalidStateException                          (* exceptions.py:16-17 *)
| InterruptedException (code : Z)                (* exceptions.py:20-27; payload: code of the CmeError that caused it *)
| CommandError (command : option str)            (* exceptions.py:30-47, no type/code *)
| CmeError (command : str) (code : Z)            (* exceptions.py:50-69 *)
| PinRequiredError (command : str) (code : Z)    (* exceptions.py:79-85 *)
| IncorrectPinError (command : str) (code : Z)   (* exceptions.py:88-94 *)
| PukRequiredError (command : str) (code : Z)    (* exceptions.py:97-103 *)
| CmsError (command : str) (code : Z)            (* exceptions.py:106-121 *)
| SmscNumberUnknownError (command : str) (code : Z). (* exceptions.py:124-130 *)

Inductive res (A : Type) : Type :=
| Ok (a : A)
| Err (e : exn).
Arguments Ok {A} a.
Arguments Err {A} e.

Definition bind {A B} (x : res A) (f : A -> res B) : res B :=
  match x with Ok a => f a | Err e => Err e end.
Notation "'let*' p ':=' x 'in' y" := (bind x (fun p => y))
  (at level 200, p pattern, x at level 100, y at level 200, right associativity).

(** ASCII string literals of the source, as code point lists. *)
Definition lit (s : string) : str :=
  map (fun c => Z.of_nat (nat_of_ascii c)) (list_ascii_of_string s).

Fixpoint list_eqb {A} (eqb : A -> A -> bool) (a b : list A) : bool :=
  match a, b with
  | [], [] => true
  | x :: a', y :: b' => eqb x y && list_eqb eqb a' b'
  | _, _ => false
  end.
Definition str_eqb : str -> str -> bool := list_eqb Z.eqb.

(** [s.startswith(p)] *)
Fixpoint startswith (s p : str) : bool :=
  match p, s with
  | [], _ => true
  | c :: p', d :: s' => (c =? d) && startswith s' p'
  | _ :: _, [] => false
  end.

(** [p in s] for strings *)
Fixpoint contains (s p : str) : bool :=
  startswith s p || match s with [] => false | _ :: s' => contains s' p end.

(** [sep.join(parts)] *)
Fixpoint join (sep : str) (parts : list str) : str :=
  match parts with
  | [] => []
  | [p] => p
  | p :: ps => p ++ sep ++ join sep ps
  end.

(** [bytearray.append(x)]: the appended element, or ValueError when it is not in
    range(0, 256). *)
Definition byte (x : Z) : res Z :=
  if (0 <=? x) && (x <? 256) then Ok x else Err ValueError.

(** [bytearray(xs)] / [bytearray.extend(xs)] *)
Fixpoint mk_bytes (xs : list Z) : res bytes :=
  match xs with
  | [] => Ok []
  | x :: xs' => let* b := byte x in let* bs := mk_bytes xs' in Ok (b :: bs)
  end.

(** [next(it)] *)
Definition next {A} (it : list A) : res (A * list A) :=
  match it with
  | [] => Err StopIteration
  | x :: it' => Ok (x, it')
  end.

(** ASCII character classes.  Simplification: [str.isdigit], [str.isalnum],
    [str.isspace] and [int()] are modelled on ASCII characters only; a non-ASCII
    character is neither a digit nor white space here. *)
Definition is_digit (c : Z) : bool := (48 <=? c) && (c <=? 57).
Definition is_space (c : Z) : bool :=
  ((9 <=? c) && (c <=? 13)) || ((28 <=? c) && (c <=? 32)).

(** Value of a hexadecimal digit character, either case. *)
Definition hexval (c : Z) : option Z :=
  if (48 <=? c) && (c <=? 57) then Some (c - 48)
  else if (65 <=? c) && (c <=? 70) then Some (c - 55)
  else if (97 <=? c) && (c <=? 102) then Some (c - 87)
  else None.

(** Digits of [int(s, base)] after sign and white space: non-empty, all below
    the base. *)
Fixpoint int_digits (base acc : Z) (s : str) : option Z :=
  match s with
  | [] => Some acc
  | c :: s' =>
      match hexval c with
      | Some d => if d <? base then int_digits base (acc * base + d) s' else None
      | None => None
      end
  end.

Fixpoint lstrip (s : str) : str :=
  match s with
  | c :: s' => if is_space c then lstrip s' else s
  | [] => []
  end.
Definition strip (s : str) : str := rev (lstrip (rev (lstrip s))).

(** [int(s, base)] for base 10 or 16 (Python 3.3: no underscores).
    Simplification: the "0x" prefix that base 16 admits is not modelled; the
    code only converts one- and two-character strings in base 16, on which it
    cannot occur. *)
Definition py_int (base : Z) (s : str) : res Z :=
  let body (s : str) :=
    match s with
    | [] => Err ValueError
    | _ => match int_digits base 0 s with Some v => Ok v | None => Err ValueError end
    end in
  match strip s with
  | 43 :: s' => body s'                              (* '+' *)
  | 45 :: s' => let* v := body s' in Ok (- v)        (* '-' *)
  | s' => body s'
  end.

(** Decimal text of a non-negative integer, [str(n)].  [fuel] bounds the number
    of digits; [str_of_Z] supplies enough. *)
Fixpoint dec_digits (fuel : nat) (n : Z) : str :=
  match fuel with
  | O => []
  | S f => if n <? 10 then [48 + n] else dec_digits f (n / 10) ++ [48 + n mod 10]
  end.
Definition str_of_Z (n : Z) : str :=
  if n <? 0 then 45 :: dec_digits (S (Z.to_nat (Z.log2 (- n)))) (- n)
  else dec_digits (S (Z.to_nat (Z.log2 n))) n.

(** Upper/lower case hexadecimal digit characters. *)
Definition hexdigit_lower (d : Z) : Z := if d <? 10 then 48 + d else 87 + d.
Definition hexdigit_upper (d : Z) : Z := if d <? 10 then 48 + d else 55 + d.
