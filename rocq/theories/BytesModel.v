(** The read loop of serial_comms.py (lines 83-110) on what a port can deliver: strings
    (Python 2, and the ports of the tests) or bytes objects (pyserial on Python 3). *)
From Verif Require Import Base SerialModel.

(** The result of serial.read(1): at most one character; empty when it timed out. *)
Inductive datum := DStr (s : str) | DBytes (b : list Z).
(** ==: a string never equals a bytes object *)
Definition datum_eqb (a b : datum) : bool :=
  match a, b with DStr s, DStr t => str_eqb s t | DBytes s, DBytes t => str_eqb s t | _, _ => false end.
Fixpoint data_eqb (a b : list datum) : bool :=
  match a, b with [], [] => true | x :: a', y :: b' => datum_eqb x y && data_eqb a' b' | _, _ => false end.
(** list(s) *)
Definition chars (s : str) : list datum := map (fun c => DStr [c]) s.
(** l[-n:], l[:-n] for n > 0 *)
Definition tail_of (n : nat) (l : list datum) : list datum := skipn (length l - n) l.
Definition front_of (n : nat) (l : list datum) : list datum := firstn (length l - n) l.
(** ''.join(l): only strings can be joined *)
Fixpoint join_all (l : list datum) : res str :=
  match l with
  | [] => Ok []
  | DStr s :: l' => let* t := join_all l' in Ok (s ++ t)
  | DBytes _ :: _ => Err TypeError
  end.
(** One iteration, lines 93-108: the new rxBuffer, and the call of _handleLineRead, if
    any.  [expect]: _expectResponseTermSeq. *)
Definition read_datum (expect : option str) (buf : list datum) (d : datum) : res (list datum * option (str * bool)) :=
  if datum_eqb d (DStr []) then Ok (buf, None)
  else
    let buf := buf ++ [d] in
    if data_eqb (tail_of 2 buf) (chars RX_EOL_SEQ) then
      let* line := join_all (front_of 2 buf) in
      Ok ([], match line with [] => None | _ => Some (line, true) end)
    else match expect with
         | Some e =>
             if data_eqb (tail_of (length e) buf) (chars e) then let* line := join_all buf in Ok ([], Some (line, false))
             else Ok (buf, None)
         | None => Ok (buf, None)
         end.
(** The loop; each iteration with the value of _expectResponseTermSeq that it finds.
    Results: the calls, and rxBuffer or the exception that ends the thread. *)
Fixpoint read_data (buf : list datum) (input : list (option str * datum)) : list (str * bool) * res (list datum) :=
  match input with
  | [] => ([], Ok buf)
  | (expect, d) :: input' =>
      match read_datum expect buf d with
      | Err e => ([], Err e)
      | Ok (buf', call) =>
          let '(calls, final) := read_data buf' input' in
          (match call with Some c => c :: calls | None => calls end, final)
      end
  end.
