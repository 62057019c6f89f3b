(** gsmmodem/exceptions.py: the classes, what constructing them gives, and what they
    say. *)
From Verif Require Import Base.

(** The classes of exceptions.py, lines 3-134. *)
Inductive cls :=
| CBase          (* GsmModemException, line 3 *)
| CTimeout       (* TimeoutException, line 7 *)
| CInvalid       (* InvalidStateException, line 16 *)
| CInterrupted   (* InterruptedException, line 20 *)
| CCommand       (* CommandError, line 30 *)
| CCme           (* CmeError, line 50 *)
| CSecurity      (* SecurityException, line 72 *)
| CPin           (* PinRequiredError, line 79 *)
| CWrongPin      (* IncorrectPinError, line 88 *)
| CPuk           (* PukRequiredError, line 97 *)
| CCms           (* CmsError, line 106 *)
| CSmsc          (* SmscNumberUnknownError, line 124 *)
| CEncoding.     (* EncodingError, line 133 *)
Definition cls_eqb (a b : cls) : bool :=
  match a, b with
  | CBase, CBase | CTimeout, CTimeout | CInvalid, CInvalid | CInterrupted, CInterrupted | CCommand, CCommand | CCme, CCme | CSecurity, CSecurity
  | CPin, CPin | CWrongPin, CWrongPin | CPuk, CPuk | CCms, CCms | CSmsc, CSmsc | CEncoding, CEncoding => true
  | _, _ => false
  end.
(** The base class in the class statement; [None]: Exception. *)
Definition base (c : cls) : option cls :=
  match c with
  | CBase => None
  | CTimeout | CInvalid | CCommand | CEncoding => Some CBase
  | CInterrupted => Some CInvalid
  | CCme | CCms => Some CCommand
  | CSecurity => Some CCme
  | CPin | CWrongPin | CPuk => Some CSecurity
  | CSmsc => Some CCms
  end.
(** issubclass(c, d): along at most five class statements *)
Fixpoint issub_from (steps : nat) (c d : cls) : bool :=
  cls_eqb c d || match steps with
                 | O => false
                 | S n => match base c with Some b => issub_from n b d | None => false end
                 end.
Definition issubclass (c d : cls) : bool := issub_from 5 c d.

(** Argument values.  [AObj id s]: an object that is neither None, nor a string, nor a
    number, with what str() makes of it. *)
Inductive arg := ANone | AStr (s : str) | AInt (n : Z) | AObj (id : nat) (s : str).
Definition is_none (a : arg) : bool := match a with ANone => true | _ => false end.
(** a == n *)
Definition equals (a : arg) (n : Z) : bool := match a with AInt k => k =? n | _ => false end.
(** str(a) *)
Definition show (a : arg) : str :=
  match a with ANone => lit "None" | AStr s => s | AInt n => str_of_Z n | AObj _ s => s end.

(** An exception: its class, the attributes that __init__ set, and BaseException.args. *)
Record object := mk_object { o_class : cls; o_attrs : list (str * arg); o_args : list arg }.

(** The _description attributes, lines 36, 82, 91, 100, 127. *)
Definition description (c : cls) : str :=
  match c with
  | CPin => lit "SIM card PIN is required"
  | CWrongPin => lit "Incorrect PIN entered"
  | CPuk => lit "PUK required (SIM locked)"
  | CSmsc => lit "SMSC number not set"
  | _ => []
  end.

(** CommandError.__init__, lines 38-47, for an object of class [c]. *)
Definition command_init (c : cls) (command type code : arg) : object :=
  mk_object c [(lit "command", command); (lit "type", type); (lit "code", code)]
    (if negb (is_none type) && negb (is_none code)
     then [AStr (show type ++ lit " " ++ show code ++ (if 0 <? Z.of_nat (length (description c)) then lit " (" ++ description c ++ lit ")" else []))]
     else if negb (is_none command) then [command]
     else []).
(** CmeError.__init__ (lines 68-69), CmsError.__init__ (lines 120-121) *)
Definition cme_init (c : cls) (command code : arg) : object := command_init c command (AStr (lit "CME")) code.
Definition cms_init (c : cls) (command code : arg) : object := command_init c command (AStr (lit "CMS")) code.

(** __init__ of the class [c] with positional arguments; a wrong number of them is a
    TypeError.  The classes without __init__ have that of BaseException. *)
Definition init (c : cls) (args : list arg) : res object :=
  match c with
  | CBase | CInvalid | CEncoding => Ok (mk_object c [] args)
  | CTimeout =>                                  (* lines 10-13 *)
      match args with
      | [] => Ok (mk_object c [(lit "data", ANone)] [ANone])
      | [data] => Ok (mk_object c [(lit "data", data)] [data])
      | _ => Err TypeError
      end
  | CInterrupted =>                              (* lines 24-27 *)
      match args with
      | [message] => Ok (mk_object c [(lit "cause", ANone)] [message])
      | [message; cause] => Ok (mk_object c [(lit "cause", cause)] [message])
      | _ => Err TypeError
      end
  | CCommand =>                                  (* lines 38-47 *)
      match args with
      | [] => Ok (command_init c ANone ANone ANone)
      | [command] => Ok (command_init c command ANone ANone)
      | [command; type] => Ok (command_init c command type ANone)
      | [command; type; code] => Ok (command_init c command type code)
      | _ => Err TypeError
      end
  | CCme | CSecurity =>                          (* lines 68-69, 75-76 *)
      match args with [command; code] => Ok (cme_init c command code) | _ => Err TypeError end
  | CPin =>                                      (* lines 84-85 *)
      match args with [command] => Ok (cme_init c command (AInt 11)) | [command; code] => Ok (cme_init c command code) | _ => Err TypeError end
  | CWrongPin =>                                 (* lines 93-94 *)
      match args with [command] => Ok (cme_init c command (AInt 16)) | [command; code] => Ok (cme_init c command code) | _ => Err TypeError end
  | CPuk =>                                      (* lines 102-103 *)
      match args with [command] => Ok (cme_init c command (AInt 12)) | [command; code] => Ok (cme_init c command code) | _ => Err TypeError end
  | CCms =>                                      (* lines 120-121 *)
      match args with [command; code] => Ok (cms_init c command code) | _ => Err TypeError end
  | CSmsc =>                                     (* lines 129-130 *)
      match args with [command] => Ok (cms_init c command (AInt 330)) | [command; code] => Ok (cms_init c command code) | _ => Err TypeError end
  end.

(** Calling a class (type.__call__): __new__, then __init__ of the object's own class if
    the object is an instance of the called class.  [CmeError.__new__], lines 56-66,
    and [CmsError.__new__], lines 112-118, call a class again, with one argument; an
    object of BaseException.__new__ has the called class and the arguments. *)
Fixpoint call (fuel : nat) (c : cls) (args : list arg) : res object :=
  match fuel with
  | O => Err OutOfFuel
  | S n =>
      let plain := Ok (mk_object c [] args) in
      let new :=
        if issubclass c CCme then
          match args with
          | a :: code :: _ =>
              if equals code 11 then call n CPin [a]
              else if equals code 16 then call n CWrongPin [a]
              else if equals code 12 then call n CPuk [a]
              else plain
          | _ => plain
          end
        else if issubclass c CCms then
          match args with
          | a :: code :: _ => if equals code 330 then call n CSmsc [a] else plain
          | _ => plain
          end
        else plain in
      let* o := new in
      if issubclass (o_class o) c then init (o_class o) args else Ok o
  end.
Definition construct : cls -> list arg -> res object := call 2.

(** except d: catches it *)
Definition caught (o : object) (d : cls) : bool := issubclass (o_class o) d.
(** o.name; [None]: AttributeError *)
Fixpoint lookup (name : str) (l : list (str * arg)) : option arg :=
  match l with [] => None | (k, v) :: l' => if str_eqb k name then Some v else lookup name l' end.
Definition attr (o : object) (name : str) : option arg := lookup name (o_attrs o).
(** str(o), BaseException.__str__; [None]: several arguments, shown as a tuple (not modelled) *)
Definition text (o : object) : option str :=
  match o_args o with [] => Some [] | [a] => Some (show a) | _ => None end.

(** The exceptions of the other model files ([exn] of Base.v) as objects.  [class_of]:
    the class, [None] for Python's own exceptions; [object_of]: the whole object, of the
    subclasses of CommandError. *)
Definition class_of (e : exn) : option cls :=
  match e with
  | EncodingError => Some CEncoding
  | TimeoutException _ => Some CTimeout
  | InvalidStateException => Some CInvalid
  | InterruptedException _ => Some CInterrupted
  | CommandError _ => Some CCommand
  | CmeError _ _ => Some CCme
  | PinRequiredError _ _ => Some CPin
  | IncorrectPinError _ _ => Some CWrongPin
  | PukRequiredError _ _ => Some CPuk
  | CmsError _ _ => Some CCms
  | SmscNumberUnknownError _ _ => Some CSmsc
  | _ => None
  end.
Definition object_of (e : exn) : option object :=
  match e with
  | CommandError None => Some (command_init CCommand ANone ANone ANone)
  | CommandError (Some c) => Some (command_init CCommand (AStr c) ANone ANone)
  | CmeError c n => Some (cme_init CCme (AStr c) (AInt n))
  | PinRequiredError c n => Some (cme_init CPin (AStr c) (AInt n))
  | IncorrectPinError c n => Some (cme_init CWrongPin (AStr c) (AInt n))
  | PukRequiredError c n => Some (cme_init CPuk (AStr c) (AInt n))
  | CmsError c n => Some (cms_init CCms (AStr c) (AInt n))
  | SmscNumberUnknownError c n => Some (cms_init CSmsc (AStr c) (AInt n))
  | _ => None
  end.
