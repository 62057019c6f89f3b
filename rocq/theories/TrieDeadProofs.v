(** Proofs about the trie after deletions: a branch whose keys have all been deleted
    behaves, for longestCommonPrefix, like a stored key. *)
From Verif Require Import Base TrieModel TrieSpec TrieDeadSpec TrieProofs TrieFinal.

Section P.
Context {V : Type}.
Implicit Types (t u : trie V) (ops : list (op V)) (k p q : str) (v : V).

(** ** The trie with a key at every dead end *)
Fixpoint revive t : trie (option V) :=
  match t with
  | Node s e =>
      Node (map (fun ct => (fst ct, revive (snd ct))) s)
           (match e, s with
            | Some (k, v), _ => Some (k, Some v)
            | None, [] => Some ([], None)
            | None, _ => None
            end)
  end.
Lemma revive_slots t : slots (revive t) = map (fun ct => (fst ct, revive (snd ct))) (slots t).
Proof. destruct t; reflexivity. Qed.
Lemma revive_entry t : entry (revive t) = match entry t, slots t with
  | Some (k, v), _ => Some (k, Some v) | None, [] => Some ([], None) | None, _ => None end.
Proof. destruct t; reflexivity. Qed.
Lemma revive_get c t : dget c (slots (revive t)) = option_map revive (dget c (slots t)).
Proof.
  rewrite revive_slots. induction (slots t) as [|[a u] s IH]; cbn [map dget fst snd]; auto.
  destruct (c =? a); auto.
Qed.

Lemma revive_present k : forall t, present (revive t) k <-> present t k \/ dead_end t k.
Proof.
  induction k as [|c k IH]; intro t; unfold present, stored; cbn [t_get dead_end].
  - rewrite revive_entry. destruct (entry t) as [[[|a k0] v]|]; [|split; [intros [? [=]]|intros [[? [=]]|[? [=]]]]|].
    + split; [intros _; left; eauto|eauto].
    + destruct (slots t) as [|x s].
      * split; [auto|eauto].
      * split; [intros [? [=]]|intros [[? [=]]|[[=] _]]].
  - rewrite revive_get. destruct (dget c (slots t)) as [u|] eqn:E; cbn [option_map].
    + apply (IH u).
    + rewrite revive_entry. destruct (entry t) as [[k0 v]|]; [destruct (str_eqb (c :: k) k0)|destruct (slots t)];
        rewrite ?str_eqb_cons_nil; try solve [split; [intros [? [=]]|intros [[? [=]]|[]]]].
      split; [intros _; left; eauto|eauto].
Qed.

Lemma revive_lcp0 t : forall p, t_lcp0 (revive t) p = t_lcp0 t p.
Proof.
  induction t as [s e IH] using trie_induct. intro p. cbn [revive t_lcp0]. destruct e as [[k v]|]; auto.
  destruct s as [|[c u] [|x s]]; cbn [map fst snd].
  - apply app_nil_r.
  - apply (IH c u). left. auto.
  - reflexivity.
Qed.
Lemma revive_lcp q : forall t p, t_lcp (revive t) q p = t_lcp t q p.
Proof.
  induction q as [|c q IH]; intros t p; cbn [t_lcp]; [apply revive_lcp0|].
  rewrite revive_entry, revive_get. destruct (entry t) as [[k v]|]; auto.
  destruct (slots t) as [|x s] eqn:S; [reflexivity|]. rewrite <- S. destruct (dget c (slots t)); cbn [option_map]; auto.
Qed.

Lemma revive_wf t : wf t -> wf (revive t).
Proof.
  induction t as [s e IH] using trie_induct. intro H. apply wf_iff in H as (ND & He & Hc). cbn [revive]. apply wf_iff.
  split; [|split].
  - rewrite map_map. cbn [fst]. exact ND.
  - destruct e as [[[|b k] v]|]; auto.
    + rewrite He. reflexivity.
    + destruct s; auto.
  - intros c u I. apply in_map_iff in I as ([c' u'] & [= <- <-] & I). apply (IH c' u' I). eapply Hc; eauto.
Qed.
Lemma revive_some t : wf t -> exists k, present (revive t) k.
Proof.
  induction t as [s e IH] using trie_induct. intro H. apply wf_iff in H as (ND & He & Hc).
  destruct e as [[k v]|].
  - exists k, (Some v). unfold stored. cbn [revive]. destruct k; cbn [t_get entry slots]; auto. subst s. cbn [map dget].
    rewrite str_eqb_refl. auto.
  - destruct s as [|[c u] s].
    + exists [], None. reflexivity.
    + destruct (IH c u (or_introl eq_refl) (Hc c u (or_introl eq_refl))) as [k [v P]]. exists (c :: k), v.
      unfold stored in *. cbn [revive map fst snd t_get slots dget]. rewrite Z.eqb_refl. auto.
Qed.
Lemma revive_inh t : wf t -> inhabited_t (revive t).
Proof.
  induction t as [s e IH] using trie_induct. intro H. apply wf_iff in H as (ND & He & Hc). cbn [revive]. apply inh_iff.
  intros c u I. apply in_map_iff in I as ([c' u'] & [= <- <-] & I). split.
  - apply (IH c' u' I). eapply Hc; eauto.
  - apply revive_some. eapply Hc; eauto.
Qed.

(** longestCommonPrefix after any history *)
Lemma lcp_any ops p :
  let found k := present (run ops) k \/ dead_end (run ops) k in
  let matching k := found k /\ prefix_of p k in
  ((exists k, found k /\ proper_prefix k p) -> t_longestCommonPrefix (run ops) p = []) /\
  ((forall k, ~ matching k) -> t_longestCommonPrefix (run ops) p = []) /\
  ((forall k, found k -> ~ proper_prefix k p) -> (exists k, matching k) ->
     is_lcp matching (t_longestCommonPrefix (run ops) p)).
Proof.
  cbv zeta. pose proof (run_wf ops) as W. set (t := run ops) in *. pose proof (revive_wf t W) as RW.
  destruct (lcp_exact p (revive t) [] RW (revive_inh t W)) as (A & B & C).
  unfold t_longestCommonPrefix. rewrite (revive_lcp p t []) in A, B, C. split; [|split].
  - intros (k & F & Q). apply A. exists k. split; auto. apply revive_present. auto.
  - intros N. destruct B as [|[_ ?]]; auto. intros r P. apply (N (p ++ r)). split; [apply revive_present; auto|exists r; auto].
  - intros NP (k & F & [r ->]). split.
    + intros k [Fk [s ->]]. rewrite <- (revive_lcp p t []). apply (lcp_common p (revive t) [] s); auto. apply revive_present. auto.
    + intros r' Hr. apply C.
      * intros k P. apply NP. apply revive_present. auto.
      * exists r. apply revive_present. auto.
      * intros s Ps. apply Hr. split; [apply revive_present; auto|exists s; auto].
Qed.

(** ** Where dead ends come from *)
Lemma dead_none k : forall t, dead_end t k -> forall k', present t k' -> ~ prefix_of k k'.
Proof.
  induction k as [|c k IH]; intros t D k' [v P] Q; cbn [dead_end] in D; unfold stored in P.
  - destruct D as [S E]. destruct k'; cbn [t_get] in P; rewrite ?S, E in P; discriminate.
  - apply prefix_cons_inv in Q as (k1 & -> & Q). destruct (dget c (slots t)) as [u|] eqn:G; [|exact D].
    apply (IH u D k1); auto. exists v. unfold stored. cbn [t_get] in P. rewrite G in P. auto.
Qed.
Lemma dead_leaf k0 v k : ~ dead_end (leaf k0 v) k.
Proof. destruct k; cbn; [intros [_ [=]]|auto]. Qed.
Lemma dead_set k0 : forall t v k, dead_end (t_set t k0 v) k -> dead_end t k.
Proof.
  induction k0 as [|c k0 IH]; intros t v k D; cbn [t_set] in D.
  - destruct k as [|a k]; cbn [dead_end slots entry] in *; [destruct D as [_ [=]]|exact D].
  - destruct (dget c (slots t)) as [u|] eqn:G; [|destruct (entry t) as [[[|b bk] w]|] eqn:E; [|destruct (b =? c) eqn:B; cbn [negb] in D|]];
      destruct k as [|a k]; cbn [dead_end slots entry] in *;
      try (destruct D as [D _]; apply (f_equal (dget c)) in D; rewrite dget_dset, Z.eqb_refl in D; discriminate);
      rewrite ?dget_dset in D.
    + destruct (Z.eqb_spec a c) as [->|N]; [|exact D]. rewrite G. apply (IH u v k D).
    + destruct (Z.eqb_spec a c) as [->|N]; [|exact D]. exfalso. exact (dead_leaf _ _ _ D).
    + apply Z.eqb_eq in B. subst b. destruct (Z.eqb_spec a c) as [->|N]; [|exact D]. exfalso. apply (dead_leaf bk w k). apply (IH _ _ _ D).
    + destruct (Z.eqb_spec a c) as [->|N]; [exfalso; exact (dead_leaf _ _ _ D)|].
      destruct (Z.eqb_spec a b) as [->|N']; [exfalso; exact (dead_leaf _ _ _ D)|exact D].
    + destruct (Z.eqb_spec a c) as [->|N]; [|exact D]. exfalso. exact (dead_leaf _ _ _ D).
Qed.
Lemma dead_del k0 : forall t t' k, wf t -> t_del t k0 = Ok t' -> dead_end t' k -> dead_end t k \/ prefix_of k k0.
Proof.
  induction k0 as [|c k0 IH]; intros t t' k W D Q; cbn [t_del] in D.
  - destruct (entry t) as [[[|? ?] ?]|] eqn:E; try discriminate D. injection D as <-.
    destruct k as [|a k]; [right; apply prefix_nil|]. left. exact Q.
  - destruct k as [|a k]; [right; apply prefix_nil|].
    destruct (dget c (slots t)) as [u|] eqn:G; [|discriminate D]. cbn [dead_end].
    destruct (match entry u with Some (k1, _) => str_eqb k0 k1 | None => false end) eqn:K.
    + destruct (slots u) as [|x s] eqn:S; injection D as <-; cbn [dead_end slots] in Q.
      * rewrite dget_ddel in Q by (destruct t as [s0 e0]; apply (wf_iff s0 e0) in W; apply W).
        destruct (Z.eqb_spec a c); [destruct Q|left; exact Q].
      * rewrite dget_dset in Q. destruct (Z.eqb_spec a c) as [->|N]; [|left; exact Q].
        destruct k as [|b k]; [right; exists k0; reflexivity|]. left. rewrite G. cbn [dead_end slots] in *. rewrite S. exact Q.
    + destruct (t_del u k0) as [u'|] eqn:D1; cbn [bind] in D; [|discriminate D]. injection D as <-. cbn [dead_end slots] in Q.
      rewrite dget_dset in Q. destruct (Z.eqb_spec a c) as [->|N]; [|left; exact Q].
      rewrite G. destruct (IH u u' k (wf_get _ _ _ W G) D1 Q) as [H|H]; [left; exact H|right; apply prefix_cons; exact H].
Qed.
Lemma dead_run ops k : dead_end (run ops) k -> k = [] \/ exists k', In (Del k') ops /\ prefix_of k k'.
Proof.
  induction ops as [|o ops IH] using rev_ind; unfold run in *; [|rewrite fold_left_app].
  - cbn. destruct k; auto. intros [].
  - cbn [fold_left]. intro D.
    assert (K : dead_end (fold_left step ops empty) k \/ exists k', o = Del k' /\ prefix_of k k').
    { destruct o as [k0 v|k0]; cbn [step] in D; [left; eapply dead_set; eauto|].
      destruct (t_del (fold_left step ops empty) k0) as [t'|] eqn:E; [|left; exact D].
      destruct (dead_del _ _ _ _ (run_wf ops) E D) as [H|H]; eauto. }
    destruct K as [K|(k' & -> & K)].
    + destruct (IH K) as [|(k' & I & Q)]; auto. right. exists k'. split; auto. apply in_or_app. auto.
    + right. exists k'. split; auto. apply in_or_app. right. left. auto.
Qed.
Lemma dead_origin ops k : dead_end (run ops) k ->
  (forall k', present (run ops) k' -> ~ prefix_of k k') /\ (k = [] \/ exists k', In (Del k') ops /\ prefix_of k k').
Proof. intro D. split; [apply dead_none; auto|apply dead_run; auto]. Qed.
End P.
