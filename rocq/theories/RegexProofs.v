(** The regex model against the usual reading of regular expressions: a relation
    between a regular expression, the text it matches, the group texts, and what
    follows. *)
From Verif Require Import Base RegexModel.

Fixpoint lang (r : re) (t : str) (g : list str) (rest : str) : Prop :=
  match r with
  | RLit l => t = l /\ g = []
  | RCls p => exists c, t = [c] /\ p c = true /\ g = []
  | RRep _ min max p => Forall (fun c => p c = true) t /\ (min <= length t)%nat /\
      match max with Some m => (length t <= m)%nat | None => True end /\ g = []
  | RSeq a b => exists t1 t2 g1 g2, t = t1 ++ t2 /\ g = g1 ++ g2 /\ lang a t1 g1 (t2 ++ rest) /\ lang b t2 g2 rest
  | RAlt a b => lang a t g rest \/ lang b t g rest
  | RGrp a => exists g', g = t :: g' /\ lang a t g' rest
  | RGrpPlus p => Forall (fun c => p c = true) t /\ exists t' c, t = t' ++ [c] /\ g = [[c]]
  | REol => t = [] /\ g = [] /\ (rest = [] \/ rest = [10])
  end.

Lemma span_le p s : (span p s <= length s)%nat.
Proof. induction s as [|c s IH]; cbn; [lia|]. destruct (p c); lia. Qed.
Lemma span_forall p s k : (k <= span p s)%nat -> Forall (fun c => p c = true) (firstn k s).
Proof.
  revert k. induction s as [|c s IH]; intros [|k] H; cbn; try constructor; cbn in H; try lia.
  - destruct (p c); [auto|lia].
  - destruct (p c); [apply IH; lia|lia].
Qed.
Lemma span_app p t s : Forall (fun c => p c = true) t -> (length t <= span p (t ++ s))%nat.
Proof. induction 1 as [|c t Hc _ IH]; cbn; [lia|]. rewrite Hc. lia. Qed.
Lemma in_lengths greedy min n k : In k (lengths greedy min n) <-> (min <= k <= n)%nat.
Proof.
  unfold lengths. cbv zeta. assert (In k (seq min (n + 1 - min)) <-> (min <= k <= n)%nat) as H by (rewrite in_seq; lia).
  destruct greedy; [rewrite <- in_rev|]; auto.
Qed.
Lemma startswith_app s p : startswith s p = true <-> exists r, s = p ++ r.
Proof.
  revert s. induction p as [|c p IH]; intros s; [destruct s; cbn; split; eauto|].
  destruct s as [|a s]; cbn [startswith]; [split; [discriminate|intros [r E]; discriminate]|].
  rewrite andb_true_iff, IH, Z.eqb_eq. split; [intros [-> [r ->]]; exists r; auto|intros [r [= -> ->]]; eauto].
Qed.
Lemma firstn_app_all {A} (a b : list A) : firstn (length a) (a ++ b) = a /\ skipn (length a) (a ++ b) = b.
Proof. rewrite firstn_app, skipn_app, Nat.sub_diag, firstn_all, skipn_all. cbn. rewrite app_nil_r. auto. Qed.

Lemma rm_iff r : forall s t g rest, In (t, g, rest) (rm r s) <-> s = t ++ rest /\ lang r t g rest.
Proof.
  induction r as [l|p|greedy mn mx p|a IHa b IHb|a IHa b IHb|a IHa|p|]; intros s t g rest; cbn [rm lang].
  - destruct (startswith s l) eqn:E.
    + apply startswith_app in E as [r ->]. rewrite (proj2 (firstn_app_all l r)). cbn [In]. split.
      * intros [[= <- <- <-]|[]]. auto.
      * intros (E & -> & ->). apply app_inv_head in E. subst. auto.
    + split; [intros []|]. intros (-> & -> & _). exfalso. assert (startswith (l ++ rest) l = true) by (apply startswith_app; eauto). congruence.
  - destruct s as [|c s].
    + split; [intros []|]. intros (E & c & -> & _). discriminate.
    + destruct (p c) eqn:E; cbn [In].
      * split; [intros [[= <- <- <-]|[]]; eauto|]. intros (H & c0 & -> & _ & ->). cbn in H. injection H as -> ->. auto.
      * split; [intros []|]. intros (H & c0 & -> & Hc & ->). cbn in H. injection H as -> ->. congruence.
  - rewrite in_map_iff. split.
    + intros (k & [= <- <- <-] & I). apply in_lengths in I. rewrite firstn_skipn. split; auto.
      assert (Hk : (k <= span p s)%nat) by (destruct mx; cbn [cap] in I; lia). pose proof (span_le p s).
      split; [apply span_forall; auto|]. rewrite firstn_length_le by lia. split; [lia|]. split; auto. destruct mx; cbn [cap] in I; auto; lia.
    + intros (-> & F & Hmn & Hmx & ->). exists (length t). destruct (firstn_app_all t rest) as [-> ->]. split; auto.
      apply in_lengths. pose proof (span_app p t rest F). split; auto. destruct mx; cbn [cap]; lia.
  - rewrite in_flat_map. split.
    + intros ([[t1 g1] s1] & I1 & I2). apply in_map_iff in I2 as ([[t2 g2] s2] & [= <- <- <-] & I2).
      apply IHa in I1 as [-> L1]. apply IHb in I2 as [-> L2]. split; [rewrite <- app_assoc; auto|]. exists t1, t2, g1, g2. auto.
    + intros (-> & t1 & t2 & g1 & g2 & -> & -> & L1 & L2). exists (t1, g1, t2 ++ rest). split; [apply IHa; split; auto; rewrite app_assoc; auto|].
      apply in_map_iff. exists (t2, g2, rest). split; auto. apply IHb. auto.
  - rewrite in_app_iff, IHa, IHb. tauto.
  - rewrite in_map_iff. split.
    + intros ([[t1 g1] s1] & [= <- <- <-] & I). apply IHa in I as [-> L]. eauto.
    + intros (-> & g' & -> & L). exists (t, g', rest). split; auto. apply IHa. auto.
  - rewrite in_map_iff. split.
    + intros (k & [= <- <- <-] & I). apply in_lengths in I. rewrite firstn_skipn. split; auto. pose proof (span_le p s).
      split; [apply span_forall; lia|]. exists (firstn (k - 1) s).
      destruct (skipn (k - 1) s) as [|c r] eqn:E.
      { apply (f_equal (@length Z)) in E. rewrite skipn_length in E. cbn in E. lia. }
      assert (F : firstn k s = firstn (k - 1) s ++ [c]).
      { rewrite <- (firstn_skipn (k - 1) s) at 1. rewrite E, firstn_app, firstn_firstn, firstn_length_le by lia.
        replace (Nat.min k (k - 1)) with (k - 1)%nat by lia. replace (k - (k - 1))%nat with 1%nat by lia. reflexivity. }
      exists c. split; auto. rewrite F at 1. rewrite skipn_app, firstn_length_le by lia.
      rewrite skipn_all2 by (rewrite firstn_length_le; lia). replace (k - 1 - (k - 1))%nat with 0%nat by lia. reflexivity.
    + intros (-> & F & t' & c & -> & ->). exists (length (t' ++ [c])). destruct (firstn_app_all (t' ++ [c]) rest) as [-> ->].
      rewrite app_length. cbn [length]. replace (length t' + 1 - 1)%nat with (length t') by lia. rewrite (proj2 (firstn_app_all t' [c])).
      split; auto. apply in_lengths. pose proof (span_app p _ rest F) as S. rewrite app_length in S. cbn in S. lia.
  - destruct s as [|c [|d s]].
    + split; [intros [[= <- <- <-]|[]]; auto|]. intros (E & -> & -> & _). cbn in E. subst. left. auto.
    + destruct (Z.eq_dec c 10) as [->|N].
      * split; [intros [[= <- <- <-]|[]]; auto|]. intros (E & -> & -> & _). cbn in E. subst. left. auto.
      * assert (E0 : (match c with 10 => [([], [], [10])] | _ => [] end : list way) = []).
        { destruct c as [|q|q]; auto. do 4 (destruct q as [q|q|]; auto). congruence. }
        rewrite E0. split; [intros []|]. intros (E & -> & -> & [->| ->]); cbn in E; congruence.
    + assert (E0 : (match c with 10 => [] | _ => [] end : list way) = []).
      { destruct c as [|q|q]; auto. do 4 (destruct q as [q|q|]; auto). }
      split; [intros H; rewrite E0 in H; destruct H|]. intros (E & -> & -> & [->| ->]); cbn in E; congruence.
Qed.

(** the match found is one of the ways; when there is none, nothing matches *)
Lemma re_match_some r s t g rest : re_match r s = Some (t, g, rest) -> s = t ++ rest /\ lang r t g rest.
Proof.
  unfold re_match. destruct (rm r s) as [|w l] eqn:E; [discriminate|]. intros [= ->]. apply rm_iff. rewrite E. left. auto.
Qed.
Lemma re_match_none r s : re_match r s = None <-> forall t g rest, s = t ++ rest -> ~ lang r t g rest.
Proof.
  unfold re_match. destruct (rm r s) as [|[[t g] rest] l] eqn:E.
  - split; auto. intros _ t g rest Es L. assert (I : In (t, g, rest) (rm r s)) by (apply rm_iff; auto). rewrite E in I. destruct I.
  - split; [discriminate|]. intro H. exfalso. assert (I : In (t, g, rest) (rm r s)) by (rewrite E; left; auto).
    apply rm_iff in I as [Es L]. eapply H; eauto.
Qed.
(** a way that is the only one is the match *)
Lemma re_match_unique r s t g rest : s = t ++ rest -> lang r t g rest ->
  (forall t' g' rest', s = t' ++ rest' -> lang r t' g' rest' -> (t', g', rest') = (t, g, rest)) ->
  re_match r s = Some (t, g, rest).
Proof.
  intros Es L U. destruct (re_match r s) as [[[t' g'] rest']|] eqn:E.
  - apply re_match_some in E as [E1 E2]. f_equal. apply U; auto.
  - exfalso. eapply (proj1 (re_match_none r s) E); eauto.
Qed.

(** ** Splitting at a delimiter *)
Definition starts_outside (p : Z -> bool) (s : str) : Prop := match s with c :: _ => p c = false | [] => True end.
Lemma span_unique p a b x y : Forall (fun c => p c = true) a -> Forall (fun c => p c = true) b ->
  starts_outside p x -> starts_outside p y -> a ++ x = b ++ y -> a = b /\ x = y.
Proof.
  revert b. induction a as [|c a IH]; intros [|d b] Ha Hb Hx Hy E; cbn in E.
  - auto.
  - subst x. inversion Hb; subst. cbn in Hx. congruence.
  - subst y. inversion Ha; subst. cbn in Hy. congruence.
  - injection E as -> E. inversion Ha; inversion Hb; subst. destruct (IH b) as [-> ->]; auto.
Qed.
