(** Model of the console (tools/gsmtermlib/terminal.py:58-104, the part for POSIX): what
    the terminals' loops get as keys.

    setup (74-80) makes the device give characters as soon as there is one, without
    echo and signals, so characters wait in a queue until they are read; getkey
    (86-91) is os.read(fd, 4): up to four of them at once, as one string.  While the
    queue is empty it blocks. *)
From Verif Require Export TermModel.

Inductive kaction :=
| KTyped (s : str)                  (* characters arrive: a key, several keys, or text that is pasted *)
| KGet.                             (* getkey() returns *)
(** the keys that the calls of getkey return; what is left in the queue.  None: a call returns
    though nothing has arrived, which is impossible. *)
Fixpoint console (queue : str) (l : list kaction) : option (list str * str) :=
  match l with
  | [] => Some ([], queue)
  | KTyped s :: l' => console (queue ++ s) l'
  | KGet :: l' =>
      match queue with
      | [] => None
      | _ =>
          match console (skipn 4 queue) l' with
          | Some (ks, rest) => Some (firstn 4 queue :: ks, rest)
          | None => None
          end
      end
  end.
