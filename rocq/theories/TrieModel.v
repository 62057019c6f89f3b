(** Model of tools/gsmtermlib/trie.py.

    Keys are strings; a key of None (ValueError, lines 23, 56, 80) is outside the
    model.  __iter__ (182-185) is modelled in IterModel.v. *)
From Verif Require Export Base.

Section Trie.
Context {V : Type}.

(** class Trie, lines 15-20: [slots] is the dict in insertion order; [entry] is
    the pair of attributes key and value, which the code always assigns together
    ([None]: both are None). *)
Inductive trie := Node (slots : list (Z * trie)) (entry : option (str * V)).
Definition slots (t : trie) : list (Z * trie) := match t with Node s _ => s end.
Definition entry (t : trie) : option (str * V) := match t with Node _ e => e end.

(** Trie(), Trie(key, value) *)
Definition empty : trie := Node [] None.
Definition leaf (k : str) (v : V) : trie := Node [] (Some (k, v)).

(** dict lookup, assignment and deletion *)
Fixpoint dget {B} (c : Z) (d : list (Z * B)) : option B :=
  match d with
  | [] => None
  | (c', x) :: d' => if c =? c' then Some x else dget c d'
  end.
Fixpoint dset {B} (c : Z) (x : B) (d : list (Z * B)) : list (Z * B) :=
  match d with
  | [] => [(c, x)]
  | (c', y) :: d' => if c =? c' then (c, x) :: d' else (c', y) :: dset c x d'
  end.
Fixpoint ddel {B} (c : Z) (d : list (Z * B)) : list (Z * B) :=
  match d with
  | [] => []
  | (c', y) :: d' => if c =? c' then d' else (c', y) :: ddel c d'
  end.

(** __setitem__, lines 22-52 *)
Fixpoint t_set (t : trie) (key : str) (value : V) : trie :=
  match key with
  | [] => Node (slots t) (Some ([], value))
  | c :: rest =>
      match dget c (slots t) with
      | None =>
          match entry t with
          | Some (branchC :: branchKey, w) =>
              if negb (branchC =? c) then
                Node (dset c (leaf rest value) (dset branchC (leaf branchKey w) (slots t))) None
              else
                Node (dset c (t_set (leaf branchKey w) rest value) (dset branchC (leaf branchKey w) (slots t))) None
          | _ => Node (dset c (leaf rest value) (slots t)) (entry t)
          end
      | Some trie => Node (dset c (t_set trie rest value) (slots t)) (entry t)
      end
  end.

(** __delitem__, lines 55-77 *)
Fixpoint t_del (t : trie) (key : str) : res trie :=
  match key with
  | [] => match entry t with
          | Some ([], _) => Ok (Node (slots t) None)
          | _ => Err KeyError
          end
  | c :: rest =>
      match dget c (slots t) with
      | Some trie =>
          if match entry trie with Some (k, _) => str_eqb rest k | None => false end then
            match slots trie with
            | _ :: _ => Ok (Node (dset c (Node (slots trie) None) (slots t)) (entry t))
            | [] => Ok (Node (ddel c (slots t)) (entry t))
            end
          else
            let* trie' := t_del trie rest in
            Ok (Node (dset c trie' (slots t)) (entry t))
      | None => Err KeyError
      end
  end.

(** __getitem__, lines 79-95 *)
Fixpoint t_get (t : trie) (key : str) : res V :=
  match key with
  | [] => match entry t with
          | Some ([], v) => Ok v
          | _ => Err KeyError
          end
  | c :: rest =>
      match dget c (slots t) with
      | Some trie => t_get trie rest
      | None => match entry t with
                | Some (k, v) => if str_eqb key k then Ok v else Err KeyError
                | None => Err KeyError
                end
      end
  end.

(** __contains__, lines 97-102; get, lines 111-115 *)
Definition t_contains (t : trie) (key : str) : bool :=
  match t_get t key with Err KeyError => false | _ => true end.
Definition t_getdefault (t : trie) (key : str) (default : V) : V :=
  match t_get t key with Ok v => v | Err _ => default end.

(** __len__, lines 104-109 *)
Fixpoint t_len (t : trie) : Z :=
  match t with
  | Node s e => (if e then 1 else 0) + fold_right (fun ct n => t_len (snd ct) + n) 0 s
  end.

(** _allKeys, lines 117-123 *)
Fixpoint t_allKeys (t : trie) (prefix : str) : list str :=
  match t with
  | Node s e =>
      (match e with Some (k, _) => [prefix ++ k] | None => [] end) ++
      flat_map (fun ct => t_allKeys (snd ct) (prefix ++ [fst ct])) s
  end.

(** _filteredKeys, lines 136-151.  The branch for an empty key is _allKeys. *)
Fixpoint t_filteredKeys (t : trie) (key prefix : str) : list str :=
  match key with
  | [] => t_allKeys t prefix
  | c :: rest =>
      match dget c (slots t) with
      | Some trie => t_filteredKeys trie rest (prefix ++ [c])
      | None => match entry t with
                | Some (k, _) => if startswith k key then [prefix ++ k] else []
                | None => []
                end
      end
  end.

(** keys, lines 125-134 *)
Definition t_keys (t : trie) (prefix : option str) : list str :=
  match prefix with
  | None => t_allKeys t []
  | Some p => t_filteredKeys t p []
  end.

(** _longestCommonPrefix, lines 159-180: the case of an empty key ... *)
Fixpoint t_lcp0 (t : trie) (prefix : str) : str :=
  match t with
  | Node s e =>
      match e with
      | Some (k, _) => prefix ++ k
      | None => match s with
                | [(c, t')] => t_lcp0 t' (prefix ++ [c])
                | _ => prefix
                end
      end
  end.
(** ... and the general case *)
Fixpoint t_lcp (t : trie) (key prefix : str) : str :=
  match key with
  | [] => t_lcp0 t prefix
  | c :: rest =>
      match entry t with
      | Some (k, _) => if startswith k key then prefix ++ k else []
      | None => match dget c (slots t) with
                | Some t' => t_lcp t' rest (prefix ++ [c])
                | None => []
                end
      end
  end.
(** longestCommonPrefix, lines 153-157 *)
Definition t_longestCommonPrefix (t : trie) (prefix : str) : str := t_lcp t prefix [].

(** ** Histories: the statements trie[k] = v and del trie[k] *)
Inductive op := Set_ (k : str) (v : V) | Del (k : str).
Definition step (t : trie) (o : op) : trie :=
  match o with
  | Set_ k v => t_set t k v
  | Del k => match t_del t k with Ok t' => t' | Err _ => t end
  end.
Definition run (ops : list op) : trie := fold_left step ops empty.
End Trie.
Arguments trie : clear implicits.
Arguments op : clear implicits.
