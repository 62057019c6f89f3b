(** Taking sequences of regular expressions apart, piece by piece. *)
From Verif Require Import Base RegexModel RegexProofs ModemCore ModemSpec.

Section Pieces.
Variables (r : re) (rest : str).
Lemma seq_lit l t g : lang (RLit l ;; r) t g rest <-> exists t', t = l ++ t' /\ lang r t' g rest.
Proof.
  cbn. split.
  - intros (t1 & t2 & g1 & g2 & -> & -> & [-> ->] & H). eauto.
  - intros (t' & -> & H). exists l, t', [], g. auto.
Qed.
Lemma seq_star p t g : lang (star p ;; r) t g rest <-> exists a t', t = a ++ t' /\ Forall (fun c => p c = true) a /\ lang r t' g rest.
Proof.
  cbn. split.
  - intros (t1 & t2 & g1 & g2 & -> & -> & (F & _ & _ & ->) & H). eauto.
  - intros (a & t' & -> & F & H). exists a, t', [], g. repeat split; auto. lia.
Qed.
Lemma seq_lazy p t g : lang (lazy_star p ;; r) t g rest <-> exists a t', t = a ++ t' /\ Forall (fun c => p c = true) a /\ lang r t' g rest.
Proof. apply seq_star. Qed.
Lemma seq_plus p t g : lang (plus p ;; r) t g rest <-> exists a t', t = a ++ t' /\ a <> [] /\ Forall (fun c => p c = true) a /\ lang r t' g rest.
Proof.
  cbn. split.
  - intros (t1 & t2 & g1 & g2 & -> & -> & (F & L & _ & ->) & H). exists t1, t2. repeat split; auto. destruct t1; [cbn in L; lia|congruence].
  - intros (a & t' & -> & N & F & H). exists a, t', [], g. repeat split; auto. destruct a; [congruence|cbn; lia].
Qed.
Lemma seq_opt p t g : lang (opt p ;; r) t g rest <-> exists a t', t = a ++ t' /\ (a = [] \/ exists c, a = [c] /\ p c = true) /\ lang r t' g rest.
Proof.
  cbn. split.
  - intros (t1 & t2 & g1 & g2 & -> & -> & (F & _ & L & ->) & H). exists t1, t2. repeat split; auto. destruct t1 as [|c [|d t1]]; auto; [|cbn in L; lia].
    right. exists c. inversion F; auto.
  - intros (a & t' & -> & A & H). exists a, t', [], g. repeat split; auto; [|lia|].
    + destruct A as [->|(c & -> & C)]; auto.
    + destruct A as [->|(c & -> & C)]; cbn; lia.
Qed.
Lemma seq_cls p t g : lang (RCls p ;; r) t g rest <-> exists c t', t = c :: t' /\ p c = true /\ lang r t' g rest.
Proof.
  cbn. split.
  - intros (t1 & t2 & g1 & g2 & -> & -> & (c & -> & F & ->) & H). cbn. eauto.
  - intros (c & t' & -> & N & H). exists [c], t', [], g. repeat split; eauto.
Qed.
Lemma seq_gplus p t g : lang (RGrp (plus p) ;; r) t g rest <->
  exists a t' g', t = a ++ t' /\ g = a :: g' /\ a <> [] /\ Forall (fun c => p c = true) a /\ lang r t' g' rest.
Proof.
  cbn. split.
  - intros (t1 & t2 & g1 & g2 & -> & -> & (g0 & -> & F & L & _ & ->) & H). exists t1, t2, g2. repeat split; auto. destruct t1; [cbn in L; lia|congruence].
  - intros (a & t' & g' & -> & -> & N & F & H). exists a, t', [a], g'. repeat split; auto. exists []. repeat split; auto. destruct a; [congruence|cbn; lia].
Qed.
Lemma seq_gstar p t g : lang (RGrp (star p) ;; r) t g rest <->
  exists a t' g', t = a ++ t' /\ g = a :: g' /\ Forall (fun c => p c = true) a /\ lang r t' g' rest.
Proof.
  cbn. split.
  - intros (t1 & t2 & g1 & g2 & -> & -> & (g0 & -> & F & _ & _ & ->) & H). exists t1, t2, g2. auto.
  - intros (a & t' & g' & -> & -> & F & H). exists a, t', [a], g'. repeat split; auto. exists []. repeat split; auto. lia.
Qed.
Lemma seq_gcls p t g : lang (RGrp (RCls p) ;; r) t g rest <->
  exists c t' g', t = c :: t' /\ g = [c] :: g' /\ p c = true /\ lang r t' g' rest.
Proof.
  cbn. split.
  - intros (t1 & t2 & g1 & g2 & -> & -> & (g0 & -> & c & -> & F & ->) & H). exists c, t2, g2. auto.
  - intros (c & t' & g' & -> & -> & F & H). exists [c], t', [[c]], g'. repeat split; auto. exists []. split; auto. eauto.
Qed.
End Pieces.
Lemma end_eol t g rest : lang REol t g rest <-> t = [] /\ g = [] /\ line_end rest.
Proof. reflexivity. Qed.
Lemma end_lit l t g rest : lang (RLit l) t g rest <-> t = l /\ g = [].
Proof. reflexivity. Qed.

(** takes a hypothesis [lang r t g rest] apart *)
Ltac lang_inv H :=
  let a := fresh "a" in let t := fresh "t" in let g := fresh "g" in let E := fresh "E" in let G := fresh "G" in
  let N := fresh "N" in let F := fresh "F" in let c := fresh "c" in
  match type of H with
  | lang (RLit _ ;; _) _ _ _ => apply seq_lit in H as (t & E & H); lang_inv H
  | lang (star _ ;; _) _ _ _ => apply seq_star in H as (a & t & E & F & H); lang_inv H
  | lang (lazy_star _ ;; _) _ _ _ => apply seq_lazy in H as (a & t & E & F & H); lang_inv H
  | lang (plus _ ;; _) _ _ _ => apply seq_plus in H as (a & t & E & N & F & H); lang_inv H
  | lang (opt _ ;; _) _ _ _ => apply seq_opt in H as (a & t & E & F & H); lang_inv H
  | lang (RCls _ ;; _) _ _ _ => apply seq_cls in H as (c & t & E & F & H); lang_inv H
  | lang (RGrp (plus _) ;; _) _ _ _ => apply seq_gplus in H as (a & t & g & E & G & N & F & H); lang_inv H
  | lang (RGrp (star _) ;; _) _ _ _ => apply seq_gstar in H as (a & t & g & E & G & F & H); lang_inv H
  | lang (RGrp (RCls _) ;; _) _ _ _ => apply seq_gcls in H as (c & t & g & E & G & F & H); lang_inv H
  | lang REol _ _ _ => apply end_eol in H as (E & G & H)
  | lang (RLit _) _ _ _ => apply end_lit in H as (E & G)
  end; subst.

Lemma c_not_not_in c a : Forall (fun x => c_not c x = true) a <-> ~ In c a.
Proof.
  unfold c_not. rewrite Forall_forall. split.
  - intros H I. apply H in I. rewrite Z.eqb_refl in I. discriminate.
  - intros H x I. destruct (Z.eqb_spec x c) as [->|]; [contradiction|reflexivity].
Qed.

(** right-associated concatenations, with literal prefixes consed *)
Ltac appn := repeat first [rewrite <- app_assoc | progress cbn [app]].
Ltac appn_in H := repeat first [rewrite <- app_assoc in H | progress cbn [app] in H].
