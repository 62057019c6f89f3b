(** Properties C30-C34: the trie of tools/gsmtermlib/trie.py.  [run ops] is the
    trie after any history [ops] of assignments and deletions. *)
From Verif Require Import Base TrieModel TrieSpec TrieProofs TrieFinal TrieDeadSpec TrieDeadProofs.

(** C30: assignment. *)
Theorem C30_read_back : forall V (ops : list (op V)) k v, t_get (t_set (run ops) k v) k = Ok v.
Proof. exact (fun V ops k v => get_set_same k (run ops) v (run_wf ops)). Qed.
Print Assumptions C30_read_back.
Theorem C30_other_keys : forall V (ops : list (op V)) k v k', k' <> k -> ~ proper_prefix k k' ->
  t_get (t_set (run ops) k v) k' = t_get (run ops) k'.
Proof. exact @set_other. Qed.
Print Assumptions C30_other_keys.
Theorem C30_lost_keys : forall V (ops : list (op V)) k v k', k' <> k -> present (run ops) k' ->
  let lost := proper_prefix k k' /\ (branch_depth (run ops) k' <= length k)%nat in
  (lost -> t_get (t_set (run ops) k v) k' = Err KeyError) /\
  (~ lost -> t_get (t_set (run ops) k v) k' = t_get (run ops) k').
Proof. exact @set_lost. Qed.
Print Assumptions C30_lost_keys.
Theorem C30_lost_key_unique : forall V (ops : list (op V)) k v k' k'', k' <> k -> present (run ops) k' ->
  t_get (t_set (run ops) k v) k' = Err KeyError -> present (run ops) k'' -> prefix_of k k'' -> k'' = k'.
Proof. exact @set_lost_only. Qed.
Print Assumptions C30_lost_key_unique.
(** 'AT' is lost when 'A' is inserted, but not when 'AB' is there too *)
Example C30_example :
  let t := run [Set_ (lit "AT") 1] in
  let u := run [Set_ (lit "AT") 1; Set_ (lit "AB") 2] in
  present t (lit "AT") /\ proper_prefix (lit "A") (lit "AT") /\ branch_depth t (lit "AT") = 1%nat /\
  t_get (t_set t (lit "A") 3) (lit "AT") = Err KeyError /\
  branch_depth u (lit "AT") = 2%nat /\ t_get (t_set u (lit "A") 3) (lit "AT") = Ok 1.
Proof.
  vm_compute. repeat split; try (exists 1; reflexivity); try (exists [84]; reflexivity). discriminate.
Qed.

(** C31: deletion. *)
Theorem C31_delete_present : forall V (ops : list (op V)) k, present (run ops) k ->
  exists t', t_del (run ops) k = Ok t' /\
  forall k', t_get t' k' = if str_eqb k' k then Err KeyError else t_get (run ops) k'.
Proof. exact @delete_present. Qed.
Print Assumptions C31_delete_present.
Theorem C31_delete_absent : forall V (ops : list (op V)) k, ~ present (run ops) k ->
  t_del (run ops) k = Err KeyError /\ run (ops ++ [Del k]) = run ops.
Proof. exact @delete_absent. Qed.
Print Assumptions C31_delete_absent.
Example C31_example :
  let ops := [Set_ (lit "A") 1; Set_ (lit "ATD") 2; Set_ (lit "ATH") 3] in
  present (run ops) (lit "ATD") /\ ~ present (run ops) (lit "AT").
Proof. vm_compute. split; [exists 2; reflexivity|intros [v H]; discriminate]. Qed.

(** C32: listing, length and membership. *)
Theorem C32_keys : forall V (ops : list (op V)),
  NoDup (t_keys (run ops) None) /\ forall k, In k (t_keys (run ops) None) <-> present (run ops) k.
Proof. exact (fun V ops => conj (keys_nodup ops None) (keys_all ops)). Qed.
Print Assumptions C32_keys.
Theorem C32_keys_prefix : forall V (ops : list (op V)) p,
  NoDup (t_keys (run ops) (Some p)) /\
  forall k, In k (t_keys (run ops) (Some p)) <-> present (run ops) k /\ prefix_of p k.
Proof. exact (fun V ops p => conj (keys_nodup ops (Some p)) (keys_prefix ops p)). Qed.
Print Assumptions C32_keys_prefix.
Theorem C32_len : forall V (ops : list (op V)), t_len (run ops) = Z.of_nat (length (t_keys (run ops) None)).
Proof. exact @len_keys. Qed.
Print Assumptions C32_len.
Theorem C32_contains : forall V (ops : list (op V)) k, (t_contains (run ops) k = true <-> present (run ops) k) /\
  forall d, t_getdefault (run ops) k d = match t_get (run ops) k with Ok v => v | Err _ => d end.
Proof. exact @contains_spec. Qed.
Print Assumptions C32_contains.
Example C32_example :
  let ops := [Set_ (lit "ATD") 1; Set_ (lit "ATH") 2; Set_ (lit "AT") 3; Set_ (lit "BYE") 4; Del (lit "ATH")] in
  t_keys (run ops) None = [lit "AT"; lit "ATD"; lit "BYE"] /\ t_keys (run ops) (Some (lit "A")) = [lit "AT"; lit "ATD"] /\
  t_len (run ops) = 3.
Proof. vm_compute. repeat split; reflexivity. Qed.

(** C33: agreement with an ordinary dictionary. *)
Theorem C33_lookup : forall V (ops : list (op V)), prefix_ordered ops -> forall k,
  t_get (run ops) k = match d_run ops k with Some v => Ok v | None => Err KeyError end.
Proof. exact @refines. Qed.
Print Assumptions C33_lookup.
Theorem C33_listing : forall V (ops : list (op V)), prefix_ordered ops -> forall k,
  In k (t_keys (run ops) None) <-> d_run ops k <> None.
Proof. exact @refines_keys. Qed.
Print Assumptions C33_listing.
Theorem C33_deletion : forall V (ops : list (op V)), prefix_ordered ops -> forall k,
  (exists t', t_del (run ops) k = Ok t') <-> d_run ops k <> None.
Proof. exact @refines_del. Qed.
Print Assumptions C33_deletion.
Example C33_example :
  prefix_ordered [Set_ (lit "A") 1; Set_ (lit "AT") 2; Del (lit "AT"); Set_ (lit "A") 3] /\
  let bad := [Set_ (lit "AT") 1; Set_ (lit "A") 2] in
  t_get (run bad) (lit "AT") = Err KeyError /\ d_run bad (lit "AT") = Some 1.
Proof.
  split; [|vm_compute; split; reflexivity]. unfold prefix_ordered. cbn [prefix_ordered_from d_step]. repeat split.
  - intros k' H. exfalso. apply H. reflexivity.
  - intros k' H [[r ->] N]. apply H. unfold d_set, d_empty. destruct (str_eqb_spec (lit "AT" ++ r) (lit "A")) as [E|]; [|reflexivity].
    vm_compute in E. discriminate.
  - intros k' H [[r ->] N]. apply H. unfold d_del, d_set, d_empty. destruct (str_eqb_spec (lit "A" ++ r) (lit "AT")); [reflexivity|].
    destruct (str_eqb_spec (lit "A" ++ r) (lit "A")) as [E|]; [|reflexivity]. exfalso. apply N. congruence.
Qed.

(** C34: longest common prefix.  Any history: *)
Theorem C34_common_prefix : forall V (ops : list (op V)) p, let r := t_longestCommonPrefix (run ops) p in
  (forall k, present (run ops) k -> prefix_of p k -> prefix_of r k) /\ (r = [] \/ prefix_of p r).
Proof. exact @lcp_general. Qed.
Print Assumptions C34_common_prefix.
(** ... and exactly, without deletions; the first case is the defect *)
Theorem C34_longest : forall V (ops : list (op V)) p, insert_only ops ->
  let matching k := present (run ops) k /\ prefix_of p k in
  ((exists k, present (run ops) k /\ proper_prefix k p) -> t_longestCommonPrefix (run ops) p = []) /\
  ((forall k, ~ matching k) -> t_longestCommonPrefix (run ops) p = []) /\
  ((forall k, present (run ops) k -> ~ proper_prefix k p) -> (exists k, matching k) ->
     is_lcp matching (t_longestCommonPrefix (run ops) p)).
Proof. exact @lcp_insert_only. Qed.
Print Assumptions C34_longest.
(** ... and with deletions: a branch whose keys have all been deleted counts like a stored key *)
Theorem C34_any_history : forall V (ops : list (op V)) p,
  let found k := present (run ops) k \/ dead_end (run ops) k in
  let matching k := found k /\ prefix_of p k in
  ((exists k, found k /\ proper_prefix k p) -> t_longestCommonPrefix (run ops) p = []) /\
  ((forall k, ~ matching k) -> t_longestCommonPrefix (run ops) p = []) /\
  ((forall k, found k -> ~ proper_prefix k p) -> (exists k, matching k) ->
     is_lcp matching (t_longestCommonPrefix (run ops) p)).
Proof. exact @lcp_any. Qed.
Print Assumptions C34_any_history.
(** such a branch is there only if a key along it was deleted, and no stored key goes along it *)
Theorem C34_dead_ends : forall V (ops : list (op V)) k, dead_end (run ops) k ->
  (forall k', present (run ops) k' -> ~ prefix_of k k') /\ (k = [] \/ exists k', In (Del k') ops /\ prefix_of k k').
Proof. exact @dead_origin. Qed.
Print Assumptions C34_dead_ends.
Example C34_example :
  let ops := [Set_ (lit "AT+CMGF") 1; Set_ (lit "AT+CMGS") 2; Set_ (lit "BYE") 3] in
  insert_only ops /\ t_longestCommonPrefix (run ops) (lit "AT") = lit "AT+CMG" /\
  t_longestCommonPrefix (run (Set_ (lit "A") 0 :: ops)) (lit "AT") = [] /\
  (** a deletion leaves an empty branch that shortens the result *)
  t_longestCommonPrefix (run (Set_ (lit "ABC") 0 :: Set_ (lit "ABD") 0 :: ops ++ [Del (lit "ABC"); Del (lit "ABD")])) (lit "A") = lit "A".
Proof.
  cbv zeta. split; [|vm_compute; repeat split; reflexivity].
  intros o [<-|[<-|[<-|[]]]]; eauto.
Qed.
(** a dead branch: "AB" is found although no key starts with it, and hides that "AT" is common *)
Example C34_dead_example :
  let ops := [Set_ (lit "ABC") 1; Set_ (lit "ABD") 2; Set_ (lit "ATD") 3; Set_ (lit "ATH") 4; Del (lit "ABC"); Del (lit "ABD")] in
  dead_end (run ops) (lit "AB") /\ t_longestCommonPrefix (run ops) (lit "AB") = lit "AB" /\
  t_keys (run ops) (Some (lit "AB")) = [] /\ t_keys (run ops) (Some (lit "A")) = [lit "ATD"; lit "ATH"] /\
  t_longestCommonPrefix (run ops) (lit "A") = lit "A".
Proof. vm_compute. repeat split; reflexivity. Qed.
