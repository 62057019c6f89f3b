(** Cases of the test suite of the repository, /repo/test/test_gsmterm.py (the trie) and
    test_util.py, on the models of trie.py and util.py: a check of the models, not of the
    properties.

    Not replayed: keys of None and test_iter; test_loadAtCommands, which is among the
    properties; test_SimpleOffsetTzInfo. *)
From Verif Require Import Base RegexModel UtilModel TrieModel.

(** ** test_gsmterm.py *)
Definition sets (l : list (str * str)) : list (op str) := map (fun p => Set_ (fst p) (snd p)) l.
Definition pairs : list (str * str) :=
  [(lit "abc", lit "def"); (lit "hallo", lit "daar"); (lit "hoe gaan", lit "dit met jou"); (lit "sbzd", lit "123"); (lit "abcde", lit "234627sdg"); (lit "ab", lit "asdk;jgdjsagkl")].
Definition same_keys (a b : list str) : bool :=
  Nat.eqb (length a) (length b) && forallb (fun k => existsb (str_eqb k) a) b.
(** test_storeSingle, lines 27-40 *)
Example store_single : let t := run (sets [(lit "hallo", lit "daar")]) in
  t_get t (lit "hallo") = Ok (lit "daar") /\ t_len t = 1 /\ t_get t (lit "abc") = Err KeyError /\ t_get t [] = Err KeyError /\
  let u := t_set t [] (lit "123") in t_get u [] = Ok (lit "123") /\ t_len u = 2.
Proof. repeat split. Qed.
(** test_deleteSingle, lines 42-60 *)
Example delete_single : let t := run (sets [(lit "hallo", lit "daar")]) in exists u, t_del t (lit "hallo") = Ok u /\
  t_get u (lit "hallo") = Err KeyError /\ t_len u = 0 /\ t_del u (lit "unknown key") = Err KeyError /\ t_del u [] = Err KeyError /\
  let v := t_set u [] (lit "123") in t_len v = 1 /\ exists x, t_del v [] = Ok x /\ t_len x = 0.
Proof. eexists. split; [reflexivity|]. repeat (split; [reflexivity|]). eexists. split; reflexivity. Qed.
(** test_storeRetrieveMultiple, test_len, lines 62-70, 84-89: after every insertion *)
Example store_multiple : forallb (fun n => let l := firstn n pairs in let t := run (sets l) in
    Z.eqb (t_len t) (Z.of_nat n) && forallb (fun p => match t_get t (fst p) with Ok v => str_eqb v (snd p) | Err _ => false end) l) (seq 0 7) = true.
Proof. reflexivity. Qed.
(** test_storeDeleteMultiple, lines 72-82 *)
Example delete_multiple : forallb (fun n => Z.eqb (t_len (run (sets pairs ++ map (fun p => Del (fst p)) (firstn n pairs)))) (6 - Z.of_nat n)) (seq 0 7) = true.
Proof. reflexivity. Qed.
(** test_contains, lines 91-95 *)
Example contains_ : forallb (fun n => let k := fst (nth n pairs ([], [])) in
    negb (t_contains (run (sets (firstn n pairs))) k) && t_contains (run (sets (firstn (S n) pairs))) k) (seq 0 6) = true.
Proof. reflexivity. Qed.
(** test_getMethod, lines 97-105 *)
Example get_method : t_getdefault empty (lit "abc") (lit "def") = lit "def" /\ t_getdefault (run (sets [(lit "abc", lit "123")])) (lit "abc") (lit "def") = lit "123".
Proof. split; reflexivity. Qed.
(** test_keys, lines 107-117 *)
Example keys_ : same_keys (t_keys (run (sets pairs)) None) (map fst pairs) = true.
Proof. reflexivity. Qed.
(** test_overWrite, lines 119-134 *)
Example overwrite : let t := run (sets (pairs ++ [(lit "abc", lit "def12345")])) in t_get t (lit "abc") = Ok (lit "def12345") /\ t_len t = 6.
Proof. split; reflexivity. Qed.
(** test_filteredKeys, lines 136-154 *)
Definition keys13 : list str := map lit ["a"; "ab"; "abc"; "abcd0000"; "abcd1111"; "abcd2222"; "abcd3333"; "b000"; "b1111"; "zzz123"; "zzzz1234"; "xyz123"; "AT+CSCS"]%string.
Example filtered : forallb (fun p => same_keys (t_keys (run (sets (map (fun k => (k, lit "1")) keys13))) (Some p)) (filter (fun k => startswith k p) keys13))
  (map lit ["abc"; "b"; "bc"; "zzz"; "x"; "xy"; "qwerty"; "AT+CSCS="]%string) = true.
Proof. reflexivity. Qed.
(** test_longestCommonPrefix, lines 156-176 *)
Definition five : list str := map lit ["abcDEF"; "abc123"; "abcASFDDSFDSF"; "abc@#$@#$"; "abcDxxx"]%string.
Definition prefixed (keys : list str) (p : str) : str := t_longestCommonPrefix (run (sets (map (fun k => (k, lit "1")) keys))) p.
Example common : map (prefixed five) (map lit [""; "a"; "ab"; "abc"; "abcD"; "abcDz"; "abcDE"; "abcDEF"; "abcDEz"]%string) =
  map lit ["abc"; "abc"; "abc"; "abc"; "abcD"; ""; "abcDEF"; "abcDEF"; ""]%string /\
  map (prefixed (five ++ [lit "ATD"; lit "ATDL"])) (map lit [""; "A"; "AT"; "ATD"]%string) = map lit [""; "ATD"; "ATD"; "ATD"]%string.
Proof. split; reflexivity. Qed.

(** ** test_util.py *)
Definition lines5 : list str := map lit ["12345"; "abc"; "defghi"; "abcdef"; "efg"]%string.
(** lines 17-25 *)
Example starting : lineStartingWith (lit "abc") lines5 = Some (lit "abc") /\ lineStartingWith (lit "d") lines5 = Some (lit "defghi") /\ lineStartingWith (lit "zzz") lines5 = None.
Proof. repeat split. Qed.
(** the patterns of lines 27-65: '^abc.*$', '^\d+$', '^ZZZ\d+$', '^defghi$' *)
Definition matched (r : re) : str -> option str := fun line => match re_match r line with Some _ => Some line | None => None end.
Definition abc_any : re := RLit (lit "abc") ;; star (c_not 10) ;; REol.
Definition all_digits : re := plus c_digit ;; REol.
Definition zzz_digits : re := RLit (lit "ZZZ") ;; plus c_digit ;; REol.
Definition defghi : re := RLit (lit "defghi") ;; REol.
Example matching : map (fun r => lineMatchingPattern (matched r) lines5) [abc_any; all_digits; zzz_digits] = [Some (lit "abc"); Some (lit "12345"); None].
Proof. reflexivity. Qed.
Example all_matching : map (fun r => allLinesMatchingPattern (matched r) lines5) [abc_any; defghi; all_digits; zzz_digits] = [[lit "abc"; lit "abcdef"]; [lit "defghi"]; [lit "12345"]; []].
Proof. reflexivity. Qed.

