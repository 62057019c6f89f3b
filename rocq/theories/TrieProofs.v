(** Proofs about the trie. *)
From Verif Require Import Base TrieModel TrieSpec.

Section P.
Context {V : Type}.
Notation trie := (trie V).
Implicit Types (t u : trie) (v w : V) (ops : list (op V)).

Lemma str_eqb_spec a b : reflect (a = b) (str_eqb a b).
Proof.
  revert b. induction a as [|x a IH]; intros [|y b]; cbn [str_eqb list_eqb]; try (constructor; congruence).
  destruct (Z.eqb_spec x y); cbn [andb]; [|constructor; congruence]. fold (str_eqb a b).
  destruct (IH b); constructor; congruence.
Qed.
Lemma str_eqb_refl a : str_eqb a a = true.
Proof. destruct (str_eqb_spec a a); congruence. Qed.
Lemma str_eqb_cons x a y b : str_eqb (x :: a) (y :: b) = (x =? y) && str_eqb a b. Proof. reflexivity. Qed.
Lemma str_eqb_cons_nil x a : str_eqb (x :: a) [] = false. Proof. reflexivity. Qed.
Lemma startswith_spec s p : reflect (prefix_of p s) (startswith s p).
Proof.
  revert s. induction p as [|c p IH]; intros s.
  - destruct s; cbn; constructor; eexists; reflexivity.
  - destruct s as [|d s]; cbn; [constructor; intros [r E]; discriminate|].
    destruct (Z.eqb_spec c d); cbn.
    + subst. destruct (IH s) as [H|H]; constructor.
      * destruct H as [r ->]. exists r. reflexivity.
      * intros [r E]. injection E as E. apply H. exists r. auto.
    + constructor. intros [r E]. injection E as E. congruence.
Qed.
Lemma prefix_cons c p k : prefix_of (c :: p) (c :: k) <-> prefix_of p k.
Proof. split; intros [r E]; exists r; [injection E; auto|rewrite E; reflexivity]. Qed.
Lemma prefix_cons_inv c p k : prefix_of (c :: p) k -> exists k', k = c :: k' /\ prefix_of p k'.
Proof. intros [r ->]. exists (p ++ r). split; [reflexivity|exists r; reflexivity]. Qed.
Lemma prefix_nil p : prefix_of [] p. Proof. exists p. reflexivity. Qed.
Lemma prefix_nil_r p : prefix_of p [] -> p = [].
Proof. intros [r E]. destruct p; [auto|discriminate]. Qed.
Lemma prefix_refl p : prefix_of p p. Proof. exists []. rewrite app_nil_r. reflexivity. Qed.
Lemma prefix_trans a b c : prefix_of a b -> prefix_of b c -> prefix_of a c.
Proof. intros [r ->] [s ->]. exists (r ++ s). rewrite app_assoc. reflexivity. Qed.
Lemma prefix_antisym a b : prefix_of a b -> prefix_of b a -> a = b.
Proof.
  revert b. induction a as [|x a IH]; intros b H1 H2.
  - symmetry. apply prefix_nil_r; auto.
  - destruct (prefix_cons_inv _ _ _ H1) as (b' & -> & H1'). f_equal. apply IH; auto. exact (proj1 (prefix_cons _ _ _) H2).
Qed.

(** ** Dictionaries *)
Section D.
Context {B : Type}.
Implicit Type d : list (Z * B).
Lemma dget_dset c x d c' : dget c' (dset c x d) = if c' =? c then Some x else dget c' d.
Proof.
  induction d as [|[a y] d IH]; cbn [dset dget].
  - reflexivity.
  - destruct (Z.eqb_spec c a) as [->|N]; cbn [dget].
    + destruct (Z.eqb_spec c' a); reflexivity.
    + rewrite IH. destruct (Z.eqb_spec c' a) as [->|]; auto. destruct (Z.eqb_spec a c); congruence.
Qed.
Lemma dget_ddel c d c' : NoDup (map fst d) -> dget c' (ddel c d) = if c' =? c then None else dget c' d.
Proof.
  induction d as [|[a y] d IH]; intros H; cbn [ddel dget].
  - destruct (c' =? c); auto.
  - inversion H as [|? ? Hn Hd]; subst. cbn [fst] in Hn.
    destruct (Z.eqb_spec c a) as [->|N]; cbn [dget].
    + destruct (Z.eqb_spec c' a) as [Ec|]; auto. subst c'.
      destruct (dget a d) eqn:E; auto. exfalso. apply Hn. clear - E.
      induction d as [|[a0 z] d IH]; [discriminate|]. cbn in *. destruct (Z.eqb_spec a a0); auto.
    + rewrite IH; auto. destruct (Z.eqb_spec c' a) as [Ec|]; auto. destruct (Z.eqb_spec c' c); congruence.
Qed.
Lemma dset_keys c x d c' : In c' (map fst (dset c x d)) <-> c' = c \/ In c' (map fst d).
Proof.
  induction d as [|[a y] d IH]; cbn [dset map fst In].
  - split; intros [|]; auto; contradiction.
  - destruct (Z.eqb_spec c a) as [->|N]; cbn [map fst In]; [|rewrite IH]; intuition congruence.
Qed.
Lemma dset_nodup c x d : NoDup (map fst d) -> NoDup (map fst (dset c x d)).
Proof.
  induction d as [|[a y] d IH]; cbn [dset map fst]; intro H; [repeat constructor; auto|].
  inversion H; subst. destruct (Z.eqb_spec c a) as [->|N]; cbn [map fst]; constructor; auto.
  rewrite dset_keys. intros [->|]; auto.
Qed.
Lemma ddel_incl c d x : In x (ddel c d) -> In x d.
Proof.
  induction d as [|[a y] d IH]; cbn; auto. destruct (c =? a); cbn; auto. intros [|]; auto.
Qed.
Lemma ddel_nodup c d : NoDup (map fst d) -> NoDup (map fst (ddel c d)).
Proof.
  induction d as [|[a y] d IH]; cbn [ddel map fst]; intro H; auto.
  inversion H; subst. destruct (c =? a); auto. cbn [map fst]. constructor; auto.
  intro I. apply H2. apply in_map_iff in I as ([b z] & <- & I). apply in_map_iff. exists (b, z). split; auto.
  eapply ddel_incl; eauto.
Qed.
Lemma dset_in c x d e : In e (dset c x d) -> e = (c, x) \/ In e d.
Proof.
  induction d as [|[a y] d IH]; cbn [dset In].
  - intros [|]; auto.
  - destruct (Z.eqb_spec c a) as [->|N]; cbn [In]; intros [|]; auto. destruct (IH H); auto.
Qed.
Lemma dget_in c d x : dget c d = Some x -> In (c, x) d.
Proof.
  induction d as [|[a y] d IH]; cbn; [discriminate|]. destruct (Z.eqb_spec c a) as [->|]; [intros [= ->]; auto|auto].
Qed.
Lemma in_dget c d x : NoDup (map fst d) -> In (c, x) d -> dget c d = Some x.
Proof.
  induction d as [|[a y] d IH]; cbn [map fst In dget]; [intros _ []|]. intros H [E|E]; inversion H; subst.
  - injection E as -> ->. rewrite Z.eqb_refl. reflexivity.
  - destruct (Z.eqb_spec c a) as [->|]; auto. exfalso. apply H2. apply in_map_iff. exists (a, x). auto.
Qed.
End D.

(** ** Induction over tries, well-formedness *)
Lemma trie_induct (P : trie -> Prop) :
  (forall s e, (forall c t, In (c, t) s -> P t) -> P (Node s e)) -> forall t, P t.
Proof.
  intro H. fix IH 1. intros [s e]. apply H.
  induction s as [|[c t] s IHs]; intros c' t' I; [destruct I|].
  destruct I as [E|I]; [injection E as _ <-; apply IH|eapply IHs; eauto].
Qed.

Fixpoint wf (t : trie) : Prop :=
  match t with
  | Node s e => NoDup (map fst s) /\ match e with Some (_ :: _, _) => s = [] | _ => True end /\
      fold_right (fun ct P => wf (snd ct) /\ P) True s
  end.
Lemma fold_and {A} (P : A -> Prop) l : fold_right (fun x Q => P x /\ Q) True l <-> forall x, In x l -> P x.
Proof.
  induction l as [|a l IH]; cbn [fold_right In]; [split; [intros _ x []|auto]|].
  rewrite IH. split; [intros [H1 H2] x [->|]; auto|intros H; split; auto].
Qed.
Lemma wf_iff s e : wf (Node s e) <-> NoDup (map fst s) /\
  match e with Some (_ :: _, _) => s = [] | _ => True end /\ forall c t, In (c, t) s -> wf t.
Proof.
  cbn [wf]. rewrite (fold_and (fun ct => wf (snd ct)) s). split; intros (A & B & C); (split; [auto|split; [auto|]]).
  - intros c t I. apply (C (c, t) I).
  - intros [c t] I. eapply C; eauto.
Qed.
Lemma wf_nodup t : wf t -> NoDup (map fst (slots t)).
Proof. destruct t. intro H. apply wf_iff in H. tauto. Qed.
Lemma wf_get t c t' : wf t -> dget c (slots t) = Some t' -> wf t'.
Proof. destruct t as [s e]. intros H E. apply wf_iff in H as (_ & _ & H). eapply H, dget_in, E. Qed.
Lemma wf_leaf k (v : V) : wf (leaf k v).
Proof. apply wf_iff. cbn. split; [constructor|]. split; [destruct k; auto|intros ? ? []]. Qed.
Lemma wf_entry t b k v : wf t -> entry t = Some (b :: k, v) -> slots t = [].
Proof. destruct t as [s e]. intros H E. cbn [entry slots] in *. subst. apply wf_iff in H. tauto. Qed.
Lemma wf_dset t c t' e : wf t -> wf t' -> match e with Some (_ :: _, _) => False | _ => True end ->
  wf (Node (dset c t' (slots t)) e).
Proof.
  destruct t as [s e0]. intros H H' He. apply wf_iff in H as (A & B & C). apply wf_iff. split; [apply dset_nodup; auto|].
  split; [destruct e as [[[|] ?]|]; auto; contradiction|].
  intros c0 t0 I. cbn [slots] in I. apply dset_in in I as [[= -> ->]|I]; eauto.
Qed.

Lemma set_wf k : forall (t : trie) (v : V), wf t -> wf (t_set t k v).
Proof.
  induction k as [|c k IH]; intros t v H; cbn [t_set].
  - destruct t as [s e]. apply wf_iff in H as (A & B & C). apply wf_iff. auto.
  - destruct (dget c (slots t)) as [t'|] eqn:E.
    + apply wf_dset; auto. { apply IH. eapply wf_get; eauto. }
      destruct (entry t) as [[[|b bk] w]|] eqn:En; auto. rewrite (wf_entry _ _ _ _ H En) in E. discriminate.
    + destruct (entry t) as [[[|b bk] w]|] eqn:En.
      * apply wf_dset; auto. apply wf_leaf.
      * destruct (b =? c) eqn:Ebc; cbn [negb].
        -- change (wf (Node (dset c (t_set (leaf bk w) k v) (slots (Node (dset b (leaf bk w) (slots t)) None))) None)).
           apply wf_dset; auto; [apply wf_dset; auto; apply wf_leaf|apply IH, wf_leaf].
        -- change (wf (Node (dset c (leaf k v) (slots (Node (dset b (leaf bk w) (slots t)) None))) None)).
           apply wf_dset; auto; [apply wf_dset; auto; apply wf_leaf|apply wf_leaf].
      * apply wf_dset; auto. apply wf_leaf.
Qed.

Lemma del_wf k : forall t t', wf t -> t_del t k = Ok t' -> wf t'.
Proof.
  induction k as [|c k IH]; intros t t' H; cbn [t_del].
  - destruct (entry t) as [[[|] v]|] eqn:En; try discriminate. intros [= <-].
    destruct t as [s e]. apply wf_iff in H as (A & B & C). apply wf_iff. auto.
  - destruct (dget c (slots t)) as [u|] eqn:E; [|discriminate].
    assert (He : match entry t with Some (_ :: _, _) => False | _ => True end).
    { destruct (entry t) as [[[|b bk] w]|] eqn:En; auto. rewrite (wf_entry _ _ _ _ H En) in E. discriminate. }
    pose proof (wf_get _ _ _ H E) as Hu.
    destruct (match entry u with Some (k0, _) => str_eqb k k0 | None => false end).
    + destruct (slots u) as [|x s] eqn:Es.
      * intros [= <-]. destruct t as [s e]. apply wf_iff in H as (A & B & C). apply wf_iff. cbn [slots entry] in *.
        split; [apply ddel_nodup; auto|]. split; [destruct e as [[[|] ?]|]; auto; contradiction|].
        intros c0 t0 I. eapply C, ddel_incl, I.
      * intros [= <-]. apply wf_dset; auto. rewrite <- Es. destruct u as [s' e']. apply wf_iff in Hu as (A & B & C).
        apply wf_iff. auto.
    + destruct (t_del u k) as [u'|] eqn:D; [|discriminate]. cbn [bind]. intros [= <-]. apply wf_dset; auto. eapply IH; eauto.
Qed.

Lemma run_wf_from ops : forall t, wf t -> wf (fold_left step ops t).
Proof.
  induction ops as [|o ops IH]; intros t H; cbn [fold_left]; auto. apply IH. destruct o as [k v|k]; cbn [step].
  - apply set_wf; auto.
  - destruct (t_del t k) eqn:E; auto. eapply del_wf; eauto.
Qed.
Lemma run_wf (ops : list (op V)) : wf (run ops).
Proof. apply run_wf_from. apply wf_iff. cbn. repeat split; auto; [constructor|intros ? ? []]. Qed.

(** ** Insertion *)
Lemma get_leaf k (v : V) k' : t_get (leaf k v) k' = if str_eqb k' k then Ok v else Err KeyError.
Proof.
  destruct k' as [|c k']; cbn [t_get leaf entry slots dget]; [|reflexivity].
  destruct k; reflexivity.
Qed.

Lemma get_set_same k : forall (t : trie) (v : V), wf t -> t_get (t_set t k v) k = Ok v.
Proof.
  induction k as [|c k IH]; intros t v H; cbn [t_set].
  - reflexivity.
  - destruct (dget c (slots t)) as [t'|] eqn:E.
    + cbn [t_get slots]. rewrite dget_dset, Z.eqb_refl. apply IH. eapply wf_get; eauto.
    + destruct (entry t) as [[[|b bk] w]|] eqn:En; [|destruct (b =? c); cbn [negb]|];
        cbn [t_get slots]; rewrite dget_dset, Z.eqb_refl; try (rewrite get_leaf, str_eqb_refl; reflexivity).
      apply IH, wf_leaf.
Qed.

(** a key is lost when the inserted key ends inside the part of it that is kept
    in its node *)
Definition lost (t : trie) (k k' : str) : Prop :=
  present t k' /\ proper_prefix k k' /\ (branch_depth t k' <= length k)%nat.

Lemma proper_cons c k k' : proper_prefix (c :: k) (c :: k') <-> proper_prefix k k'.
Proof. unfold proper_prefix. rewrite prefix_cons. intuition congruence. Qed.

Lemma lost_cons t c t' k k' : dget c (slots t) = Some t' -> lost t (c :: k) (c :: k') <-> lost t' k k'.
Proof.
  intro E. unfold lost, present, stored. cbn [t_get branch_depth length]. rewrite E, proper_cons. split; intros (A & B & C); repeat split; auto; try lia; apply B.
Qed.
Lemma get_err (t : trie) : forall k, match t_get t k with Ok _ => True | Err e => e = KeyError end.
Proof.
  intros k. revert t. induction k as [|c k IH]; intros t; cbn [t_get].
  - destruct (entry t) as [[[|] ?]|]; auto.
  - destruct (dget c (slots t)); [apply IH|]. destruct (entry t) as [[k0 v]|]; auto. destruct (str_eqb (c :: k) k0); auto.
Qed.
Lemma present_dec t k : present t k \/ t_get t k = Err KeyError.
Proof.
  pose proof (get_err t k) as H. unfold present, stored. destruct (t_get t k) as [v|e]; [left; eauto|right; congruence].
Qed.

Lemma get_set_other k : forall (t : trie) (v : V) k', wf t -> k' <> k ->
  (lost t k k' /\ t_get (t_set t k v) k' = Err KeyError) \/
  (~ lost t k k' /\ t_get (t_set t k v) k' = t_get t k').
Proof.
  induction k as [|c k IH]; intros t v k' H N.
  - cbn [t_set]. destruct k' as [|c' k']; [congruence|]. cbn [t_get slots entry].
    unfold lost, present, stored. cbn [branch_depth length t_get].
    destruct (dget c' (slots t)) as [t'|] eqn:E.
    + right. split; auto. intros (_ & _ & L). lia.
    + destruct (entry t) as [[k0 w]|] eqn:En.
      * change (str_eqb (c' :: k') []) with false. cbv iota. destruct (str_eqb_spec (c' :: k') k0) as [<-|].
        -- left. split; [|reflexivity]. split; [eauto|]. split; [|lia]. split; [apply prefix_nil|discriminate].
        -- right. split; auto. intros ([v0 P] & _). discriminate.
      * right. split; auto. intros ([v0 P] & _). discriminate.
  - cbn [t_set]. destruct (dget c (slots t)) as [t'|] eqn:E.
    + destruct k' as [|c' k']; cbn [t_get slots entry].
      * right. split; auto. intros (_ & [[r P] _] & _). discriminate.
      * rewrite dget_dset. destruct (Z.eqb_spec c' c) as [->|Nc].
        -- rewrite E. rewrite (lost_cons _ _ _ _ _ E). apply IH; [eapply wf_get; eauto|congruence].
        -- right. split; auto. intros (_ & [P _] & _). apply prefix_cons_inv in P as (r & [= P1 P2] & _). congruence.
    + assert (NL : forall k'', lost t (c :: k) k'' -> exists r w, k'' = c :: r /\ entry t = Some (c :: r, w)).
      { intros k'' ([w P] & [Q _] & _). apply prefix_cons_inv in Q as (r & -> & _). exists r, w. split; auto.
        unfold stored in P. cbn [t_get] in P. rewrite E in P. destruct (entry t) as [[k0 w0]|]; [|discriminate].
        destruct (str_eqb_spec (c :: r) k0) as [<-|]; [|discriminate]. injection P as ->. reflexivity. }
      destruct (entry t) as [[[|b bk] w]|] eqn:En.
      * right. split. { intro L. apply NL in L as (r & w' & _ & L). discriminate. }
        destruct k' as [|c' k']; cbn [t_get slots entry]; [rewrite En; reflexivity|].
        rewrite dget_dset. destruct (Z.eqb_spec c' c) as [->|Nc]; [|rewrite En; reflexivity].
        rewrite E, get_leaf, En. rewrite ?str_eqb_cons, ?str_eqb_cons_nil. destruct (str_eqb_spec k' k); [congruence|reflexivity].
      * pose proof (wf_entry _ _ _ _ H En) as Hs.
        destruct (Z.eqb_spec b c) as [->|Nb]; cbn [negb].
        -- assert (LL : forall k0, lost t (c :: k) (c :: k0) <-> lost (leaf bk w) k k0).
           { intro k0. unfold lost, present, stored. rewrite proper_cons, get_leaf. cbn [t_get branch_depth length].
             rewrite E, En. rewrite ?str_eqb_cons, ?str_eqb_cons_nil. rewrite Z.eqb_refl. cbn [andb]. 
             split; intros (A & B & C); repeat split; auto; try apply B; try lia; destruct k0; cbn; lia. }
           destruct k' as [|c' k']; cbn [t_get slots entry].
           ++ right. split; [intros (_ & [[r P] _] & _); discriminate|]. rewrite En. reflexivity.
           ++ rewrite !dget_dset. destruct (Z.eqb_spec c' c) as [->|Nc].
              ** rewrite LL, E, En. rewrite ?str_eqb_cons, ?str_eqb_cons_nil. rewrite Z.eqb_refl. cbn [andb]. 
                 rewrite <- (get_leaf bk w k'). apply IH; [apply wf_leaf|congruence].
              ** right. split. { intros (_ & [P _] & _). apply prefix_cons_inv in P as (r & [= P1 P2] & _). congruence. }
                 rewrite Hs. cbn [dget]. rewrite En. rewrite ?str_eqb_cons, ?str_eqb_cons_nil. rewrite (proj2 (Z.eqb_neq c' c) Nc). reflexivity.
        -- right. split. { intro L. apply NL in L as (r & w' & _ & L). congruence. }
           destruct k' as [|c' k']; cbn [t_get slots entry]; [rewrite En; reflexivity|].
           rewrite !dget_dset. destruct (Z.eqb_spec c' c) as [->|Nc].
           ++ rewrite get_leaf, E, En. rewrite ?str_eqb_cons, ?str_eqb_cons_nil. rewrite (proj2 (Z.eqb_neq c b)) by congruence. cbn [andb].
              destruct (str_eqb_spec k' k); [congruence|reflexivity].
           ++ rewrite Hs, En. cbn [dget]. destruct (Z.eqb_spec c' b) as [->|Nb'].
              ** rewrite get_leaf. rewrite ?str_eqb_cons, ?str_eqb_cons_nil. rewrite Z.eqb_refl. reflexivity.
              ** rewrite ?str_eqb_cons, ?str_eqb_cons_nil. rewrite (proj2 (Z.eqb_neq c' b)) by congruence. reflexivity.
      * right. split. { intro L. apply NL in L as (r & w' & _ & L). discriminate. }
        destruct k' as [|c' k']; cbn [t_get slots entry]; [rewrite En; reflexivity|].
        rewrite dget_dset. destruct (Z.eqb_spec c' c) as [->|Nc]; [|rewrite En; reflexivity].
        rewrite E, get_leaf, En. destruct (str_eqb_spec k' k); [congruence|reflexivity].
Qed.

(** a key that is lost is the only one that starts with the inserted key *)
Lemma lost_unique t : forall k k', wf t -> lost t k k' -> forall k'', present t k'' -> prefix_of k k'' -> k'' = k'.
Proof.
  intros k. revert t. induction k as [|c k IH]; intros t k' H ([v' P'] & Q & L) k'' [v'' P''] Q''; unfold stored in *.
  - destruct k' as [|c' k']; [destruct Q; congruence|]. cbn [branch_depth length t_get] in *.
    destruct (dget c' (slots t)) as [t'|] eqn:E; [lia|].
    destruct (entry t) as [[k0 w]|] eqn:En; [|discriminate]. destruct (str_eqb_spec (c' :: k') k0) as [<-|]; [|discriminate].
    pose proof (wf_entry _ _ _ _ H En) as Hs.
    destruct k'' as [|c'' k'']; cbn [t_get] in P''; rewrite ?En, ?Hs in P''; [discriminate|]. cbn [dget] in P''.
    destruct (str_eqb_spec (c'' :: k'') (c' :: k')); [auto|discriminate].
  - pose proof Q as [Q0 _]. apply prefix_cons_inv in Q0 as (r & -> & _). apply prefix_cons_inv in Q'' as (r'' & -> & Q'').
    cbn [branch_depth length t_get] in *. destruct (dget c (slots t)) as [t'|] eqn:E.
    + f_equal. apply (proj1 (proper_cons _ _ _)) in Q. apply (IH t'); auto; [eapply wf_get; eauto| |exists v''; auto].
      split; [exists v'; auto|]. split; auto. lia.
    + destruct (entry t) as [[k0 w]|] eqn:En; [|discriminate].
      destruct (str_eqb_spec (c :: r) k0) as [<-|]; [|discriminate].
      destruct (str_eqb_spec (c :: r'') (c :: r)); [auto|discriminate].
Qed.

(** ** Deletion *)
Lemma get_del k : forall t, wf t ->
  match t_del t k with
  | Ok t' => present t k /\ t_get t' k = Err KeyError /\ forall k', k' <> k -> t_get t' k' = t_get t k'
  | Err e => e = KeyError
  end.
Proof.
  induction k as [|c k IH]; intros t H; cbn [t_del].
  - destruct (entry t) as [[[|b bk] v]|] eqn:En; auto. split; [exists v; unfold stored; cbn [t_get]; rewrite En; auto|].
    split; [reflexivity|]. intros [|c' k'] N; [congruence|]. cbn [t_get slots entry]. rewrite En.
    destruct (dget c' (slots t)); auto.
  - destruct (dget c (slots t)) as [u|] eqn:E; auto.
    assert (He : match entry t with Some (_ :: _, _) => False | _ => True end).
    { destruct (entry t) as [[[|b bk] w]|] eqn:En; auto. rewrite (wf_entry _ _ _ _ H En) in E. discriminate. }
    pose proof (wf_get _ _ _ H E) as Hu.
    assert (HE : forall c' k', match entry t with Some (k0, v) => if str_eqb (c' :: k') k0 then Ok v else Err KeyError | None => Err KeyError end = Err KeyError).
    { intros. destruct (entry t) as [[[|] ?]|]; auto. contradiction. }
    destruct (match entry u with Some (k0, _) => str_eqb k k0 | None => false end) eqn:M.
    + destruct (entry u) as [[k0 w]|] eqn:Eu; [|discriminate]. destruct (str_eqb_spec k k0) as [<-|]; [|discriminate]. clear M.
      assert (P : t_get u k = Ok w).
      { destruct k as [|b k]; cbn [t_get]; rewrite ?Eu; auto. rewrite (wf_entry _ _ _ _ Hu Eu). cbn [dget]. rewrite str_eqb_refl. reflexivity. }
      destruct (slots u) as [|x s] eqn:Es.
      * split; [exists w; unfold stored; cbn [t_get]; rewrite E; auto|].
        assert (G : forall c' k', t_get (Node (ddel c (slots t)) (entry t)) (c' :: k') = if c' =? c then Err KeyError else t_get t (c' :: k')).
        { intros c' k'. cbn [t_get slots entry]. rewrite dget_ddel by (apply wf_nodup; auto). destruct (c' =? c); auto. }
        split; [rewrite G, Z.eqb_refl; auto|]. intros [|c' k'] N; [reflexivity|]. rewrite G.
        destruct (Z.eqb_spec c' c) as [->|]; auto. cbn [t_get]. rewrite E.
        destruct u as [s0 e0]. cbn [slots entry] in *. subst. fold (leaf k w). rewrite get_leaf.
        destruct (str_eqb_spec k' k); congruence.
      * assert (Hk : k = []) by (destruct k as [|b k]; auto; rewrite (wf_entry _ _ _ _ Hu Eu) in Es; discriminate).
        subst k. split; [exists w; unfold stored; cbn [t_get]; rewrite E, Eu; auto|].
        split; [cbn [t_get slots]; rewrite dget_dset, Z.eqb_refl; reflexivity|].
        intros [|c' k'] N; [reflexivity|]. cbn [t_get slots entry]. rewrite dget_dset.
        destruct (Z.eqb_spec c' c) as [->|]; auto. rewrite E. destruct k' as [|c1 k1]; [congruence|].
        cbn [t_get slots entry]. rewrite Es, Eu. destruct (dget c1 (x :: s)); auto.
    + specialize (IH u Hu). destruct (t_del u k) as [u'|e]; cbn [bind]; auto. destruct IH as ([w P] & D & O).
      split; [exists w; unfold stored in *; cbn [t_get]; rewrite E; auto|].
      split; [cbn [t_get slots]; rewrite dget_dset, Z.eqb_refl; auto|].
      intros [|c' k'] N; [reflexivity|]. cbn [t_get slots entry]. rewrite dget_dset.
      destruct (Z.eqb_spec c' c) as [->|]; auto. rewrite E. apply O. congruence.
Qed.
(** a present key can be deleted, except at a node that stores it as a whole, for
    which the parent is responsible *)
Definition not_leaf_for (t : trie) (k : str) : Prop := match entry t with Some (k0, _) => k0 = [] \/ k0 <> k | None => True end.
Lemma del_present k : forall t, wf t -> present t k -> not_leaf_for t k -> exists t', t_del t k = Ok t'.
Proof.
  induction k as [|c k IH]; intros t H [v P] NL; unfold stored in P; cbn [t_del t_get] in *.
  - destruct (entry t) as [[[|] w]|]; try discriminate. eauto.
  - destruct (dget c (slots t)) as [u|] eqn:E.
    + pose proof (wf_get _ _ _ H E) as Hu.
      destruct (match entry u with Some (k0, _) => str_eqb k k0 | None => false end) eqn:M; [destruct (slots u); eauto|].
      destruct (IH u Hu) as [u' ->]; [exists v; auto| |cbn [bind]; eauto].
      unfold not_leaf_for. destruct (entry u) as [[k0 w]|]; auto. right. intros ->. rewrite str_eqb_refl in M. discriminate.
    + exfalso. unfold not_leaf_for in NL. destruct (entry t) as [[k0 w]|]; [|discriminate].
      destruct (str_eqb_spec (c :: k) k0) as [<-|]; [|discriminate]. destruct NL; congruence.
Qed.

Definition root_ok (t : trie) : Prop := match entry t with Some (_ :: _, _) => False | _ => True end.
Lemma set_root t k v : root_ok t -> root_ok (t_set t k v).
Proof.
  unfold root_ok. intro H. destruct k as [|c k]; cbn [t_set entry]; auto.
  destruct (dget c (slots t)); cbn [entry]; auto. destruct (entry t) as [[[|] ?]|]; auto. contradiction.
Qed.
Lemma del_root t k t' : root_ok t -> t_del t k = Ok t' -> root_ok t'.
Proof.
  unfold root_ok. intro H. destruct k as [|c k]; cbn [t_del].
  - destruct (entry t) as [[[|] ?]|]; try discriminate. intros [= <-]. exact I.
  - destruct (dget c (slots t)) as [u|]; [|discriminate].
    destruct (match entry u with Some (k0, _) => str_eqb k k0 | None => false end).
    + destruct (slots u); intros [= <-]; auto.
    + destruct (t_del u k); [|discriminate]. cbn [bind]. intros [= <-]. auto.
Qed.
Lemma run_root_from (ops : list (op V)) : forall t, root_ok t -> root_ok (fold_left step ops t).
Proof.
  induction ops as [|o ops IH]; intros t H; cbn [fold_left]; auto. apply IH. destruct o as [k v|k]; cbn [step].
  - apply set_root; auto.
  - destruct (t_del t k) eqn:E; auto. eapply del_root; eauto.
Qed.
Lemma run_root (ops : list (op V)) : root_ok (run ops).
Proof. apply run_root_from. exact I. Qed.
Lemma root_not_leaf t k : root_ok t -> not_leaf_for t k.
Proof. unfold root_ok, not_leaf_for. destruct (entry t) as [[[|] ?]|]; auto; contradiction. Qed.

(** ** Listing *)
Lemma flat_map_nodup {A B} (f : A -> list B) l : NoDup l ->
  (forall x, In x l -> NoDup (f x)) ->
  (forall x y z, In x l -> In y l -> In z (f x) -> In z (f y) -> x = y) -> NoDup (flat_map f l).
Proof.
  induction l as [|a l IH]; intros H Hf Hd; cbn [flat_map]; [constructor|]. inversion H; subst.
  assert (NoDup (flat_map f l)) as HN by (apply IH; auto; [intros; apply Hf; cbn; auto|intros; eapply Hd; cbn; eauto]).
  assert (forall z, In z (f a) -> ~ In z (flat_map f l)) as HX.
  { intros z Hz I. apply in_flat_map in I as (y & Iy & Iz). assert (a = y) by (eapply Hd; cbn; eauto). subst. auto. }
  specialize (Hf a (or_introl eq_refl)). clear - HN HX Hf. induction (f a) as [|b m IHm]; cbn [app]; auto.
  inversion Hf; subst. constructor.
  - rewrite in_app_iff. intros [|]; auto. apply (HX b); cbn; auto.
  - apply IHm; auto. intros. apply HX. cbn. auto.
Qed.

Lemma allKeys_in t : forall p k, wf t -> In k (t_allKeys t p) <-> exists r, k = p ++ r /\ present t r.
Proof.
  induction t as [s e IH] using trie_induct. intros p k H. cbn [t_allKeys]. rewrite in_app_iff, in_flat_map.
  pose proof H as H0. apply wf_iff in H0 as (ND & He & Hc). split.
  - intros [I|([c t] & I & J)].
    + destruct e as [[k0 v]|]; [|destruct I]. destruct I as [<-|[]]. exists k0. split; auto. exists v. unfold stored.
      destruct k0; cbn [t_get entry slots]; auto. subst s. cbn [dget]. rewrite str_eqb_refl. reflexivity.
    + cbn [fst snd] in J. apply (IH c t I) in J; [|eapply Hc; eauto]. destruct J as (r & -> & v & P).
      exists (c :: r). rewrite <- app_assoc. split; auto. exists v. unfold stored. cbn [t_get slots].
      rewrite (in_dget _ _ _ ND I). auto.
  - intros (r & -> & v & P). unfold stored in P. destruct r as [|c r]; cbn [t_get slots entry] in P.
    + destruct e as [[[|] w]|]; try discriminate. left. left. reflexivity.
    + destruct (dget c s) as [t|] eqn:E.
      * right. exists (c, t). pose proof (dget_in _ _ _ E) as I. split; auto. cbn [fst snd]. apply (IH c t I); [eapply Hc; eauto|].
        exists r. rewrite <- app_assoc. split; auto. exists v. auto.
      * left. destruct e as [[k0 w]|]; [|discriminate]. destruct (str_eqb_spec (c :: r) k0) as [<-|]; [|discriminate]. left. auto.
Qed.

Lemma NoDup_map_fst {A B} (l : list (A * B)) : NoDup (map fst l) -> NoDup l.
Proof.
  induction l as [|a l IH]; cbn [map]; intro H; constructor; inversion H; subst; auto.
  intro I. apply H2. apply in_map; auto.
Qed.
Lemma app_one_inj {A} (p : list A) c r c' r' : (p ++ [c]) ++ r = (p ++ [c']) ++ r' -> c = c' /\ r = r'.
Proof. rewrite <- !app_assoc. intro E. apply app_inv_head in E. cbn in E. injection E. auto. Qed.

Lemma allKeys_nodup t : forall p, wf t -> NoDup (t_allKeys t p).
Proof.
  induction t as [s e IH] using trie_induct. intros p H. cbn [t_allKeys].
  pose proof H as H0. apply wf_iff in H0 as (ND & He & Hc).
  assert (HF : NoDup (flat_map (fun ct => t_allKeys (snd ct) (p ++ [fst ct])) s)).
  { apply flat_map_nodup.
    - apply NoDup_map_fst; auto.
    - intros [c t] I. apply (IH c t I). eapply Hc; eauto.
    - intros [c t] [c' t'] z I I' J J'. cbn [fst snd] in *.
      apply allKeys_in in J; [|eapply Hc; eauto]. apply allKeys_in in J'; [|eapply Hc; eauto].
      destruct J as (r & -> & _), J' as (r' & E & _). apply app_one_inj in E as [<- <-].
      pose proof (in_dget _ _ _ ND I). pose proof (in_dget _ _ _ ND I'). congruence. }
  destruct e as [[k0 v]|]; cbn [app]; auto. constructor; auto.
  intro I. apply in_flat_map in I as ([c t] & I & J). cbn [fst snd] in J. apply allKeys_in in J; [|eapply Hc; eauto].
  destruct J as (r & E & _). rewrite <- app_assoc in E. apply app_inv_head in E. subst k0. cbn in He. subst s. destruct I.
Qed.

Lemma len_allKeys t : forall p, Z.of_nat (length (t_allKeys t p)) = t_len t.
Proof.
  induction t as [s e IH] using trie_induct. intros p. cbn [t_allKeys t_len]. rewrite app_length, Nat2Z.inj_add. f_equal.
  { destruct e as [[? ?]|]; reflexivity. }
  induction s as [|[c t] s IHs]; [reflexivity|]. cbn [flat_map fold_right]. rewrite app_length, Nat2Z.inj_add. f_equal.
  - cbn [fst snd]. apply (IH c t (or_introl eq_refl)).
  - apply IHs. intros. eapply IH. right. eauto.
Qed.

Lemma filtered_in q : forall t p k, wf t -> In k (t_filteredKeys t q p) <-> exists r, k = p ++ q ++ r /\ present t (q ++ r).
Proof.
  induction q as [|c q IH]; intros t p k H; cbn [t_filteredKeys].
  - apply allKeys_in; auto.
  - destruct (dget c (slots t)) as [u|] eqn:E.
    + rewrite IH by (eapply wf_get; eauto). unfold present, stored. cbn [app t_get]. rewrite E.
      split; intros (r & -> & P); exists r; split; auto; rewrite <- app_assoc; auto.
    + unfold present, stored. cbn [app t_get]. rewrite E. destruct (entry t) as [[k0 v]|].
      * destruct (startswith_spec k0 (c :: q)) as [[r ->]|N].
        -- cbn [In]. split.
           ++ intros [<-|[]]. exists r. split; auto. exists v. cbn [app]. rewrite str_eqb_refl. reflexivity.
           ++ intros (r' & -> & w & P). destruct (str_eqb_spec (c :: q ++ r') ((c :: q) ++ r)) as [Er|]; [|discriminate].
              left. rewrite <- Er. reflexivity.
        -- split; [intros []|]. intros (r & -> & w & P). destruct (str_eqb_spec (c :: q ++ r) k0) as [<-|]; [|discriminate].
           exfalso. apply N. exists r. reflexivity.
      * split; [intros []|]. intros (r & _ & w & P). discriminate.
Qed.
Lemma filtered_nodup q : forall t p, wf t -> NoDup (t_filteredKeys t q p).
Proof.
  induction q as [|c q IH]; intros t p H; cbn [t_filteredKeys].
  - apply allKeys_nodup; auto.
  - destruct (dget c (slots t)) as [u|] eqn:E; [apply IH; eapply wf_get; eauto|].
    destruct (entry t) as [[k0 v]|]; [|constructor]. destruct (startswith k0 (c :: q)); repeat constructor; auto.
Qed.

(** ** Refinement of a dictionary *)
Definition lookup (t : trie) (k : str) : option V := match t_get t k with Ok v => Some v | Err _ => None end.
Lemma lookup_present t k : present t k <-> lookup t k <> None.
Proof. unfold present, stored, lookup. destruct (t_get t k); split; try congruence; eauto. intros [? H]; discriminate. Qed.
Lemma lookup_get t k : t_get t k = match lookup t k with Some v => Ok v | None => Err KeyError end.
Proof. unfold lookup. pose proof (get_err t k) as H. destruct (t_get t k); congruence. Qed.

Lemma lookup_set t k v k' : wf t -> (forall k'', present t k'' -> ~ proper_prefix k k'') ->
  lookup (t_set t k v) k' = if str_eqb k' k then Some v else lookup t k'.
Proof.
  intros H N. unfold lookup. destruct (str_eqb_spec k' k) as [->|Ne]; [rewrite get_set_same; auto|].
  destruct (get_set_other k t v k' H Ne) as [[L _]|[_ ->]]; auto. destruct L as (P & Q & _). exfalso. eapply N; eauto.
Qed.
Lemma lookup_del t k k' : wf t -> root_ok t ->
  lookup (step t (Del k)) k' = if str_eqb k' k then None else lookup t k'.
Proof.
  intros H R. unfold step. pose proof (get_del k t H) as D. destruct (t_del t k) as [t'|e] eqn:E.
  - destruct D as (_ & D1 & D2). unfold lookup. destruct (str_eqb_spec k' k) as [->|N]; [rewrite D1; auto|rewrite D2; auto].
  - destruct (str_eqb_spec k' k) as [->|N]; auto. destruct (lookup t k) eqn:L; auto. exfalso.
    destruct (del_present k t H) as [t' E']; [apply lookup_present; congruence|apply root_not_leaf; auto|congruence].
Qed.

Lemma refine_from ops : forall t d, wf t -> root_ok t -> (forall k, lookup t k = d k) -> prefix_ordered_from d ops ->
  forall k, lookup (fold_left step ops t) k = fold_left d_step ops d k.
Proof.
  induction ops as [|o ops IH]; intros t d H R E PO k; cbn [fold_left]; auto. destruct PO as [P PO].
  apply IH; auto.
  - destruct o; cbn [step]; [apply set_wf; auto|]. destruct (t_del t k0) eqn:D; auto. eapply del_wf; eauto.
  - destruct o; cbn [step]; [apply set_root; auto|]. destruct (t_del t k0) eqn:D; auto. eapply del_root; eauto.
  - intro k'. destruct o as [k0 v|k0]; cbn [d_step].
    + cbn [step]. unfold d_set. rewrite <- E. apply lookup_set; auto. intros k'' Pk. apply P. rewrite <- E. apply lookup_present; auto.
    + unfold d_del. rewrite <- E. apply lookup_del; auto.
Qed.

(** ** Longest common prefix *)
(** every history: a common prefix, and an extension of the argument *)
Lemma lcp0_starts t : forall p, prefix_of p (t_lcp0 t p).
Proof.
  induction t as [s e IH] using trie_induct. intro p. cbn [t_lcp0]. destruct e as [[k v]|]; [exists k; auto|].
  destruct s as [|[c t] [|x s]]; try apply prefix_refl. eapply prefix_trans; [|apply (IH c t); left; auto]. exists [c]. auto.
Qed.
Lemma lcp_starts q : forall t p, t_lcp t q p = [] \/ prefix_of (p ++ q) (t_lcp t q p).
Proof.
  induction q as [|c q IH]; intros t p; cbn [t_lcp].
  - right. rewrite app_nil_r. apply lcp0_starts.
  - destruct (entry t) as [[k v]|].
    + destruct (startswith_spec k (c :: q)) as [[r ->]|N]; auto. right. exists r. rewrite app_assoc. auto.
    + destruct (dget c (slots t)); auto. destruct (IH t0 (p ++ [c])) as [|H]; auto. right.
      rewrite <- app_assoc in H. auto.
Qed.
Lemma lcp0_common t : forall p k, wf t -> present t k -> prefix_of (t_lcp0 t p) (p ++ k).
Proof.
  induction t as [s e IH] using trie_induct. intros p k H P. cbn [t_lcp0]. pose proof H as H0. apply wf_iff in H0 as (ND & He & Hc).
  destruct P as [v P]. unfold stored in P. destruct e as [[[|b k0] w]|].
  - exists k. rewrite app_nil_r. auto.
  - subst s. destruct k as [|c k]; [discriminate|]. cbn [t_get slots dget entry] in P.
    destruct (str_eqb_spec (c :: k) (b :: k0)) as [<-|]; [apply prefix_refl|discriminate].
  - destruct s as [|[c t] [|x s]]; try (exists k; reflexivity).
    destruct k as [|c' k]; [discriminate|]. cbn [t_get slots dget entry] in P. destruct (Z.eqb_spec c' c) as [->|]; [|discriminate].
    replace (p ++ c :: k) with ((p ++ [c]) ++ k) by (rewrite <- app_assoc; auto). apply (IH c t); [left; auto|eapply Hc; left; auto|].
    exists v. auto.
Qed.
Lemma lcp_common q : forall t p r, wf t -> present t (q ++ r) -> prefix_of (t_lcp t q p) (p ++ q ++ r).
Proof.
  induction q as [|c q IH]; intros t p r H P; cbn [t_lcp].
  - apply lcp0_common; auto.
  - destruct (entry t) as [[k v]|] eqn:En.
    + destruct (startswith_spec k (c :: q)) as [[r0 ->]|N]; [|apply prefix_nil].
      pose proof (wf_entry _ _ _ _ H En) as Hs. destruct P as [w P]. unfold stored in P. cbn [app t_get] in P.
      rewrite Hs, En in P. cbn [dget] in P. destruct (str_eqb_spec (c :: q ++ r) ((c :: q) ++ r0)) as [E|]; [|discriminate].
      cbn [app] in *. rewrite E. apply prefix_refl.
    + destruct (dget c (slots t)) as [u|] eqn:E; [|apply prefix_nil].
      replace (p ++ (c :: q) ++ r) with ((p ++ [c]) ++ q ++ r) by (rewrite <- app_assoc; auto).
      apply IH; [eapply wf_get; eauto|]. destruct P as [w P]. exists w. unfold stored in *. cbn [app t_get] in P. rewrite E in P. auto.
Qed.

(** insertions only: no node is empty *)
Fixpoint inhabited_t (t : trie) : Prop :=
  match t with Node s e => fold_right (fun ct P => (inhabited_t (snd ct) /\ exists k, present (snd ct) k) /\ P) True s end.
Lemma inh_iff s e : inhabited_t (Node s e) <-> forall c t, In (c, t) s -> inhabited_t t /\ exists k, present t k.
Proof.
  cbn [inhabited_t]. rewrite (fold_and (fun ct => inhabited_t (snd ct) /\ exists k, present (snd ct) k) s).
  split; intros H; [intros c t I; apply (H (c, t) I)|intros [c t] I; eapply H; eauto].
Qed.
Lemma inh_leaf k (v : V) : inhabited_t (leaf k v). Proof. exact I. Qed.
Lemma present_leaf k (v : V) : present (leaf k v) k.
Proof. exists v. unfold stored. rewrite get_leaf, str_eqb_refl. reflexivity. Qed.
Lemma set_inh k : forall (t : trie) (v : V), wf t -> inhabited_t t -> inhabited_t (t_set t k v).
Proof.
  induction k as [|c k IH]; intros t v H J; cbn [t_set].
  - destruct t as [s e]. exact J.
  - assert (JS : forall c0 t0, In (c0, t0) (slots t) -> inhabited_t t0 /\ exists k, present t0 k).
    { destruct t as [s e]. exact (proj1 (inh_iff s e) J). }
    destruct (dget c (slots t)) as [u|] eqn:E.
    + apply inh_iff. intros c0 t0 I. apply dset_in in I as [[= -> ->]|I]; eauto.
      pose proof (wf_get _ _ _ H E). split; [apply IH; auto; apply (JS _ _ (dget_in _ _ _ E))|].
      exists k, v. apply get_set_same; auto.
    + destruct (entry t) as [[[|b bk] w]|]; [|destruct (b =? c); cbn [negb]|]; apply inh_iff; intros c0 t0 I;
        apply dset_in in I as [[= -> ->]|I]; eauto using inh_leaf, present_leaf;
        try (apply dset_in in I as [[= -> ->]|I]; eauto using inh_leaf, present_leaf).
      split; [apply IH; [apply wf_leaf|apply inh_leaf]|]. exists k, v. apply get_set_same, wf_leaf.
Qed.
Lemma run_inh_from ops : insert_only ops -> forall t, wf t -> inhabited_t t -> inhabited_t (fold_left step ops t).
Proof.
  induction ops as [|o ops IH]; intros HO t H J; cbn [fold_left]; auto.
  destruct (HO o (or_introl eq_refl)) as (k & v & ->). apply IH; [intros o I; apply HO; right; auto| |]; cbn [step].
  - apply set_wf; auto.
  - apply set_inh; auto.
Qed.

Lemma lcp0_longest t : forall p r', wf t -> inhabited_t t -> (exists k, present t k) ->
  (forall k, present t k -> prefix_of r' (p ++ k)) -> prefix_of r' (t_lcp0 t p).
Proof.
  induction t as [s e IH] using trie_induct. intros p r' H J [k0 P0] C. cbn [t_lcp0].
  pose proof H as H0. apply wf_iff in H0 as (ND & He & Hc). pose proof (proj1 (inh_iff s e) J) as HJ.
  destruct e as [[k w]|].
  - apply C. exists w. unfold stored. destruct k; cbn [t_get entry slots]; auto. subst s. cbn [dget]. rewrite str_eqb_refl. auto.
  - destruct s as [|[c t] [|[c' t'] s]].
    + destruct P0 as [v P0]. destruct k0; discriminate.
    + apply (IH c t); [left; auto|eapply Hc; left; auto|apply (HJ c t); left; auto|apply (HJ c t); left; auto|].
      intros k P. replace ((p ++ [c]) ++ k) with (p ++ c :: k) by (rewrite <- app_assoc; auto). apply C.
      destruct P as [v P]. exists v. unfold stored in *. cbn [t_get slots dget]. rewrite Z.eqb_refl. auto.
    + destruct (HJ c t) as [_ [k1 P1]]; [left; auto|]. destruct (HJ c' t') as [_ [k2 P2]]; [right; left; auto|].
      assert (Ncc : c <> c') by (cbn in ND; inversion ND as [|? ? N1 _]; subst; intros ->; apply N1; left; auto).
      assert (Q1 : prefix_of r' (p ++ c :: k1)).
      { apply C. destruct P1 as [v P1]. exists v. unfold stored in *. cbn [t_get slots dget]. rewrite Z.eqb_refl. auto. }
      assert (Q2 : prefix_of r' (p ++ c' :: k2)).
      { apply C. destruct P2 as [v P2]. exists v. unfold stored in *. cbn [t_get slots dget].
        rewrite (proj2 (Z.eqb_neq c' c)) by congruence. rewrite Z.eqb_refl. auto. }
      clear - Q1 Q2 Ncc. revert r' Q1 Q2. induction p as [|a p IHp]; intros [|b r'] Q1 Q2; try apply prefix_nil.
      * apply prefix_cons_inv in Q1 as (? & [= E1 _] & _). apply prefix_cons_inv in Q2 as (? & [= E2 _] & _). congruence.
      * cbn [app] in *. apply prefix_cons_inv in Q1 as (? & [= <- <-] & Q1). apply prefix_cons_inv in Q2 as (? & [= <-] & Q2).
        apply prefix_cons. apply IHp; auto.
Qed.

(** exact result for insert-only histories: '' when a stored key is a proper
    prefix of the argument or nothing starts with it *)
Lemma lcp_exact q : forall t p, wf t -> inhabited_t t ->
  ((exists k, present t k /\ proper_prefix k q) -> t_lcp t q p = []) /\
  ((forall r, ~ present t (q ++ r)) -> t_lcp t q p = [] \/ (q = [] /\ t_lcp t q p = p)) /\
  ((forall k, present t k -> ~ proper_prefix k q) -> (exists r, present t (q ++ r)) ->
     forall r', (forall r, present t (q ++ r) -> prefix_of r' (p ++ q ++ r)) -> prefix_of r' (t_lcp t q p)).
Proof.
  induction q as [|c q IH]; intros t p H J; cbn [t_lcp].
  - split; [|split].
    + intros (k & _ & [Q N]). apply prefix_nil_r in Q. congruence.
    + intros N. right. split; auto. destruct t as [s e]. pose proof H as H0. apply wf_iff in H0 as (ND & He & Hc).
      cbn [t_lcp0]. destruct e as [[k v]|].
      * exfalso. apply (N k). exists v. unfold stored. destruct k; cbn [app t_get entry slots]; auto. subst s. cbn [dget].
        rewrite str_eqb_refl. auto.
      * destruct s as [|[c t] [|x s]]; auto. exfalso.
        destruct (proj1 (inh_iff _ _) J c t (or_introl eq_refl)) as [_ [k [v P]]]. apply (N (c :: k)). exists v.
        unfold stored in *. cbn [app t_get slots dget]. rewrite Z.eqb_refl. auto.
    + intros _ Ex r' C. apply lcp0_longest; auto.
  - assert (CH : forall u, dget c (slots t) = Some u -> wf u /\ inhabited_t u).
    { intros u E. split; [eapply wf_get; eauto|]. destruct t as [s e]. apply (proj1 (inh_iff _ _) J c u). apply dget_in; auto. }
    assert (PU : forall u k, dget c (slots t) = Some u -> present t (c :: k) <-> present u k).
    { intros u k E. unfold present, stored. cbn [t_get]. rewrite E. tauto. }
    destruct (entry t) as [[k v]|] eqn:En.
    + assert (Pk : present t k).
      { exists v. unfold stored. destruct k; cbn [t_get]; rewrite En; auto. rewrite (wf_entry _ _ _ _ H En). cbn [dget].
        rewrite str_eqb_refl. auto. }
      destruct (startswith_spec k (c :: q)) as [[r ->]|N].
      * pose proof (wf_entry _ _ _ _ H En) as Hs.
        assert (On : forall k', present t k' -> k' = c :: q ++ r).
        { intros k' [w P]. unfold stored in P. destruct k' as [|c' k']; cbn [t_get] in P; rewrite Hs, En in P || rewrite En in P; [discriminate|].
          cbn [dget] in P. destruct (str_eqb_spec (c' :: k') ((c :: q) ++ r)); [auto|discriminate]. }
        split; [|split].
        -- intros (k' & P & [[r' Q] N]). apply On in P. subst k'. exfalso. apply N.
           apply (f_equal (@length Z)) in Q. cbn [length app] in Q. rewrite !app_length in Q.
           assert (r = []) by (destruct r; [auto|cbn in Q; lia]). subst. rewrite app_nil_r. auto.
        -- intros N. exfalso. apply (N r). auto.
        -- intros _ _ r' C. cbn [app] in *. apply C. auto.
      * split; [auto|]. split; [auto|]. intros NP [r Pr] r' C. exfalso. destruct k as [|b bk].
        -- apply (NP []); auto. split; [apply prefix_nil|discriminate].
        -- destruct Pr as [w P]. unfold stored in P. cbn [app t_get] in P. rewrite (wf_entry _ _ _ _ H En), En in P. cbn [dget] in P.
           destruct (str_eqb_spec (c :: q ++ r) (b :: bk)) as [E|]; [|discriminate]. apply N. exists r. auto.
    + destruct (dget c (slots t)) as [u|] eqn:E.
      * destruct (CH u eq_refl) as [Hu Ju]. destruct (IH u (p ++ [c]) Hu Ju) as (I1 & I2 & I3). split; [|split].
        -- intros (k & P & Q). destruct k as [|c' k].
           { exfalso. destruct P as [w P]. unfold stored in P. cbn [t_get] in P. rewrite En in P. discriminate. }
           pose proof Q as [Q0 _]. apply prefix_cons_inv in Q0 as (? & [= <- <-] & _). apply I1. exists k. split.
           ++ apply (PU u k eq_refl); auto.
           ++ exact (proj1 (proper_cons _ _ _) Q).
        -- intros N. left. destruct I2 as [->|[-> I2]]; auto.
           { intros r P. apply (N r). apply (PU u (q ++ r) eq_refl). auto. }
           exfalso. destruct t as [s e]. cbn [slots] in E. apply dget_in in E.
           destruct (proj1 (inh_iff _ _) J c u E) as [_ [k P]]. apply (N k). apply (PU u k); auto.
        -- intros NP [r Pr] r' C. apply I3.
           ++ intros k P Q. apply (NP (c :: k)); [apply (PU u k eq_refl); auto|apply proper_cons; auto].
           ++ exists r. apply (PU u (q ++ r) eq_refl). auto.
           ++ intros r0 P0. rewrite <- app_assoc. cbn [app]. apply C. apply (PU u (q ++ r0) eq_refl). auto.
      * split; [auto|]. split; [auto|]. intros _ [r [w P]]. exfalso. unfold stored in P. cbn [app t_get] in P. rewrite E, En in P. discriminate.
Qed.
End P.
