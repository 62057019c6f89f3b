(** Python's re module, the part the library uses.

    This file models a piece of Python's standard library and belongs to the
    trusted reading of the code.  [rm r s] lists all ways in which [r] matches a
    prefix of [s], in the order in which the backtracking engine tries them; the
    engine takes the first.  A way is the matched text, the texts of the groups in
    order, and the rest of the string.

    [pattern.match] starts at the first character, so the leading '^' that most of
    the patterns have says nothing and is left out.  Only single characters are
    repeated in the patterns of the library, apart from '(\d)+' ([RGrpPlus]).
    Groups inside an alternative that is not taken are not modelled; no such group
    is used by the code. *)
From Verif Require Export Base.

Inductive re :=
| RLit (s : str)                                  (* literal text *)
| RCls (p : Z -> bool)                            (* one character of a class *)
| RRep (greedy : bool) (min : nat) (max : option nat) (p : Z -> bool)
                                                  (* p{min,max}, p{min,max}? *)
| RSeq (a b : re)
| RAlt (a b : re)
| RGrp (a : re)                                   (* ( a ) *)
| RGrpPlus (p : Z -> bool)                        (* (p)+ : the group is the last character *)
| REol.                                           (* $ without MULTILINE *)

Notation "a ;; b" := (RSeq a b) (at level 55, right associativity).

Definition way := (str * list str * str)%type.

(** number of leading characters in the class *)
Fixpoint span (p : Z -> bool) (s : str) : nat :=
  match s with
  | c :: s' => if p c then S (span p s') else 0
  | [] => 0
  end.
Definition cap (max : option nat) (n : nat) : nat :=
  match max with Some m => Nat.min n m | None => n end.
(** the lengths a repetition tries: from the longest down, or from the shortest up *)
Definition lengths (greedy : bool) (min : nat) (n : nat) : list nat :=
  let l := seq min (n + 1 - min) in if greedy then rev l else l.

Fixpoint rm (r : re) (s : str) : list way :=
  match r with
  | RLit l => if startswith s l then [(l, [], skipn (length l) s)] else []
  | RCls p => match s with c :: s' => if p c then [([c], [], s')] else [] | [] => [] end
  | RRep greedy min max p =>
      map (fun k => (firstn k s, [], skipn k s)) (lengths greedy min (cap max (span p s)))
  | RSeq a b =>
      flat_map (fun w : way => let '(t, g, s') := w in
        map (fun w' : way => let '(t', g', s'') := w' in (t ++ t', g ++ g', s'')) (rm b s')) (rm a s)
  | RAlt a b => rm a s ++ rm b s
  | RGrp a => map (fun w : way => let '(t, g, s') := w in (t, t :: g, s')) (rm a s)
  | RGrpPlus p =>
      map (fun k => (firstn k s, [skipn (k - 1) (firstn k s)], skipn k s)) (lengths true 1 (span p s))
  | REol => match s with [] => [([], [], [])] | [10] => [([], [], [10])] | _ => [] end
  end.

(** [pattern.match(s)]: the first way *)
Definition re_match (r : re) (s : str) : option way :=
  match rm r s with w :: _ => Some w | [] => None end.
(** the groups of a match object *)
Definition groups (w : way) : list str := snd (fst w).
Definition group (n : nat) (w : way) : str := nth (n - 1) (groups w) [].

(** [pattern.finditer(s)], for patterns that cannot match the empty string: after
    a match the search goes on behind it, otherwise at the next character.
    [fuel]: at most one step per character. *)
Fixpoint finditer_from (fuel : nat) (r : re) (s : str) : list way :=
  match fuel with
  | O => []
  | S f =>
      match re_match r s with
      | Some w => w :: finditer_from f r (snd w)
      | None => match s with [] => [] | _ :: s' => finditer_from f r s' end
      end
  end.
Definition finditer (r : re) (s : str) : list way := finditer_from (S (length s)) r s.

(** ** Character classes *)
Definition c_digit : Z -> bool := is_digit.                       (* \d *)
Definition c_space : Z -> bool := is_space.                       (* \s *)
Definition c_not (c : Z) : Z -> bool := fun x => negb (x =? c).   (* [^c] *)
Definition c_is (c : Z) : Z -> bool := fun x => x =? c.
Definition c_any : Z -> bool := fun x => negb (x =? 10).          (* . *)
Definition c_all : Z -> bool := fun _ => true.                    (* . with DOTALL *)

(** repetition operators *)
Definition star (p : Z -> bool) : re := RRep true 0 None p.       (* p* *)
Definition plus (p : Z -> bool) : re := RRep true 1 None p.       (* p+ *)
Definition lazy_star (p : Z -> bool) : re := RRep false 0 None p. (* p*? *)
Definition opt (p : Z -> bool) : re := RRep true 0 (Some 1%nat) p. (* p{0,1} *)
