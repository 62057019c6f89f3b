(** The trie theorems in the form of the property list. *)
From Verif Require Import Base TrieModel TrieSpec TrieProofs.

Section F.
Context {V : Type}.
Implicit Types (ops : list (op V)) (k p : str) (v : V).

Lemma set_other ops k v k' : k' <> k -> ~ proper_prefix k k' -> t_get (t_set (run ops) k v) k' = t_get (run ops) k'.
Proof.
  intros N NP. destruct (get_set_other k (run ops) v k' (run_wf ops) N) as [[(_ & P & _) _]|[_ E]]; [contradiction|auto].
Qed.
Lemma set_lost ops k v k' : k' <> k -> present (run ops) k' ->
  let lost := proper_prefix k k' /\ (branch_depth (run ops) k' <= length k)%nat in
  (lost -> t_get (t_set (run ops) k v) k' = Err KeyError) /\
  (~ lost -> t_get (t_set (run ops) k v) k' = t_get (run ops) k').
Proof.
  cbv zeta. intros N P. destruct (get_set_other k (run ops) v k' (run_wf ops) N) as [[(_ & Q & B) ->]|[NL ->]].
  - split; auto. intros H. exfalso. auto.
  - split; auto. intros [Q B]. exfalso. apply NL. repeat split; auto; apply Q.
Qed.
Lemma set_lost_only ops k v k' k'' : k' <> k -> present (run ops) k' -> t_get (t_set (run ops) k v) k' = Err KeyError ->
  present (run ops) k'' -> prefix_of k k'' -> k'' = k'.
Proof.
  intros N P E P'' Q. destruct (get_set_other k (run ops) v k' (run_wf ops) N) as [[L _]|[_ E']].
  - eapply lost_unique; eauto. apply run_wf.
  - destruct P as [w P]. unfold stored in P. congruence.
Qed.

Lemma delete_present ops k : present (run ops) k -> exists t', t_del (run ops) k = Ok t' /\
  forall k', t_get t' k' = if str_eqb k' k then Err KeyError else t_get (run ops) k'.
Proof.
  intro P. destruct (del_present k (run ops) (run_wf ops) P (root_not_leaf _ _ (run_root ops))) as [t' E].
  exists t'. split; auto. pose proof (get_del k (run ops) (run_wf ops)) as D. rewrite E in D. destruct D as (_ & D1 & D2).
  intro k'. destruct (str_eqb_spec k' k) as [->|]; auto.
Qed.
Lemma delete_absent ops k : ~ present (run ops) k -> t_del (run ops) k = Err KeyError /\ run (ops ++ [Del k]) = run ops.
Proof.
  intro N. pose proof (get_del k (run ops) (run_wf ops)) as D. destruct (t_del (run ops) k) as [t'|e] eqn:E.
  - destruct D. contradiction.
  - split; [congruence|]. unfold run. rewrite fold_left_app. cbn [fold_left step]. fold (run ops). rewrite E. reflexivity.
Qed.

Lemma keys_all ops k : In k (t_keys (run ops) None) <-> present (run ops) k.
Proof.
  cbn [t_keys]. rewrite allKeys_in by apply run_wf. split; [intros (r & -> & P); auto|intro P; exists k; auto].
Qed.
Lemma keys_prefix ops p k : In k (t_keys (run ops) (Some p)) <-> present (run ops) k /\ prefix_of p k.
Proof.
  cbn [t_keys]. rewrite filtered_in by apply run_wf. split.
  - intros (r & -> & P). split; auto. exists r. auto.
  - intros [P [r ->]]. exists r. auto.
Qed.
Lemma keys_nodup ops (op : option str) : NoDup (t_keys (run ops) op).
Proof. destruct op; cbn [t_keys]; [apply filtered_nodup|apply allKeys_nodup]; apply run_wf. Qed.
Lemma len_keys ops : t_len (run ops) = Z.of_nat (length (t_keys (run ops) None)).
Proof. cbn [t_keys]. rewrite len_allKeys. reflexivity. Qed.
Lemma contains_spec ops k : (t_contains (run ops) k = true <-> present (run ops) k) /\
  forall d, t_getdefault (run ops) k d = match t_get (run ops) k with Ok v => v | Err _ => d end.
Proof.
  split; [|reflexivity]. unfold t_contains, present, stored. pose proof (get_err (run ops) k) as E.
  destruct (t_get (run ops) k) as [v|e]; [split; eauto|]. subst e. split; [discriminate|intros [v H]; discriminate].
Qed.

Lemma refines ops : prefix_ordered ops -> forall k,
  t_get (run ops) k = match d_run ops k with Some v => Ok v | None => Err KeyError end.
Proof.
  intros H k. rewrite lookup_get. unfold run. erewrite refine_from with (d := d_empty); [reflexivity| | | |exact H].
  - apply (run_wf []).
  - exact I.
  - intros [|c k']; reflexivity.
Qed.
Lemma refines_keys ops : prefix_ordered ops -> forall k, In k (t_keys (run ops) None) <-> d_run ops k <> None.
Proof.
  intros H k. rewrite keys_all. unfold present, stored. rewrite refines by auto.
  destruct (d_run ops k); split; try congruence; eauto. intros [v E]; discriminate.
Qed.
Lemma refines_del ops : prefix_ordered ops -> forall k, (exists t', t_del (run ops) k = Ok t') <-> d_run ops k <> None.
Proof.
  intros H k. rewrite <- refines_keys, keys_all by auto. split.
  - intros [t' E]. pose proof (get_del k (run ops) (run_wf ops)) as D. rewrite E in D. apply D.
  - intro P. destruct (delete_present _ _ P) as (t' & E & _). eauto.
Qed.

Lemma lcp_general ops p : let r := t_longestCommonPrefix (run ops) p in
  (forall k, present (run ops) k -> prefix_of p k -> prefix_of r k) /\ (r = [] \/ prefix_of p r).
Proof.
  cbv zeta. unfold t_longestCommonPrefix. split.
  - intros k P [r ->]. apply (lcp_common p (run ops) [] r); auto. apply run_wf.
  - apply (lcp_starts p (run ops) []).
Qed.
Lemma lcp_insert_only ops p : insert_only ops ->
  let matching k := present (run ops) k /\ prefix_of p k in
  ((exists k, present (run ops) k /\ proper_prefix k p) -> t_longestCommonPrefix (run ops) p = []) /\
  ((forall k, ~ matching k) -> t_longestCommonPrefix (run ops) p = []) /\
  ((forall k, present (run ops) k -> ~ proper_prefix k p) -> (exists k, matching k) ->
     is_lcp matching (t_longestCommonPrefix (run ops) p)).
Proof.
  cbv zeta. intro H. destruct (lcp_exact p (run ops) [] (run_wf ops)) as (A & B & C).
  { apply run_inh_from; auto; [apply (run_wf [])|exact I]. }
  unfold t_longestCommonPrefix. split; [exact A|]. split.
  - intros N. destruct B as [|[_ ?]]; auto. intros r P. apply (N (p ++ r)). split; auto. exists r. auto.
  - intros NP (k & P & [r ->]). split.
    + intros k [Pk [s ->]]. apply (lcp_common p (run ops) [] s); auto. apply run_wf.
    + intros r' Hr. apply C; eauto. intros s Ps. apply Hr. split; auto. exists s. auto.
Qed.
End F.
