(** Proofs about iterating over a trie. *)
From Verif Require Import Base TrieModel TrieSpec TrieProofs TrieFinal IterModel IterSpec.

Section P.
Context {V : Type} (py37 : bool).
Implicit Types (t : trie V) (acts : list (act V)).

Lemma over_rest acts : forall t n x, nth_error (iterate py37 t Over acts) n = Some x -> x = Stops.
Proof.
  induction acts as [|[o|] acts IH]; intros t n x E; cbn [iterate] in E.
  - destruct n; discriminate.
  - eapply IH; eauto.
  - cbn [gen_next] in E. destruct n; cbn [nth_error] in E; [congruence|eapply IH; eauto].
Qed.
Lemma length_iterate acts : forall t g, length (iterate py37 t g acts) = nexts acts.
Proof.
  induction acts as [|[o|] acts IH]; intros t g; cbn [iterate]; unfold nexts; cbn [filter length]; auto.
  destruct (gen_next py37 t g) as [x g']. cbn [length]. rewrite IH. reflexivity.
Qed.
Lemma at_rest acts : forall t l n x, nth_error (iterate py37 t (At l) acts) n = Some x -> x = outcome_at py37 l n.
Proof.
  induction acts as [|[o|] acts IH]; intros t l n x E; cbn [iterate] in E.
  - destruct n; discriminate.
  - eapply IH; eauto.
  - cbn [gen_next] in E. destruct l as [|k l]; cbn [resume] in E.
    + destruct n; cbn [nth_error] in E.
      * unfold outcome_at. cbn. destruct py37; congruence.
      * apply over_rest in E. subst x. unfold outcome_at. cbn. reflexivity.
    + destruct n; cbn [nth_error] in E.
      * unfold outcome_at. cbn. congruence.
      * apply IH in E. subst x. reflexivity.
Qed.
(** the iteration begun after the statements [ops] *)
Lemma iter_snapshot (ops : list (op V)) acts : let turns := iterate py37 (run ops) Fresh (ANext :: acts) in
  length turns = S (nexts acts) /\
  forall n x, nth_error turns n = Some x -> x = outcome_at py37 (t_keys (run ops) None) n.
Proof.
  cbv zeta. cbn [iterate gen_next]. destruct (resume py37 (t_keys (run ops) None)) as [y g] eqn:R. split.
  - cbn [length]. rewrite length_iterate. reflexivity.
  - intros n x E. destruct n as [|n]; cbn [nth_error] in E.
    + injection E as <-. unfold resume in R. destruct (t_keys (run ops) None) as [|k l]; injection R as <- <-; reflexivity.
    + unfold resume in R. destruct (t_keys (run ops) None) as [|k l]; injection R as <- <-.
      * apply over_rest in E. subst x. reflexivity.
      * apply at_rest in E. subst x. reflexivity.
Qed.
(** what comes before the first next() only matters as a history *)
Lemma iter_later (ops : list (op V)) before acts : nexts before = 0%nat ->
  iterate py37 (run ops) Fresh (before ++ acts) = iterate py37 (run (ops ++ ops_of before)) Fresh acts.
Proof.
  revert ops. induction before as [|[o|] before IH]; intros ops N; cbn [app ops_of flat_map].
  - rewrite app_nil_r. reflexivity.
  - cbn [iterate]. replace (step (run ops) o) with (run (ops ++ [o])) by (unfold run; rewrite fold_left_app; reflexivity).
    rewrite IH by exact N. rewrite <- app_assoc. reflexivity.
  - discriminate N.
Qed.
Lemma iter_gives (ops : list (op V)) before acts : nexts before = 0%nat ->
  let turns := iterate py37 (run ops) Fresh (before ++ ANext :: acts) in
  exists keys, NoDup keys /\ (forall k, In k keys <-> present (run (ops ++ ops_of before)) k) /\
    length turns = S (nexts acts) /\ forall n x, nth_error turns n = Some x -> x = outcome_at py37 keys n.
Proof.
  intros N turns. exists (t_keys (run (ops ++ ops_of before)) None). unfold turns. rewrite iter_later by exact N.
  split; [apply keys_nodup|]. split; [apply keys_all|]. apply iter_snapshot.
Qed.
End P.
