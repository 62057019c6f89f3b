(** Lemmas about the notification patterns. *)
From Verif Require Import Base RegexModel RegexProofs SerialProofs ModemCore ModemSpec WriteProofs SmsModel SendSpec.

Lemma c_not_forall c s : Forall (fun x => c_not c x = true) s <-> ~ In c s.
Proof.
  unfold c_not. split.
  - intros F I. rewrite Forall_forall in F. specialize (F _ I). rewrite Z.eqb_refl in F. discriminate.
  - intro N. apply Forall_forall. intros x I. destruct (Z.eqb_spec x c); auto. subst. tauto.
Qed.
Definition indication_re (kind : str) : re :=
  RLit kind ;; star c_space ;; RLit (lit """") ;; RGrp (plus (c_not 34)) ;; RLit (lit """,") ;; RGrp (plus c_digit) ;; REol.
Lemma indication_lang kind t g rest : lang (indication_re kind) t g rest <->
  exists sp mem idx, blank sp /\ mem <> [] /\ ~ In 34 mem /\ digits idx /\ line_end rest /\
    t = kind ++ sp ++ 34 :: mem ++ [34; 44] ++ idx /\ g = [mem; idx].
Proof.
  unfold indication_re, plus, star. cbn [lang]. split.
  - intros (t1 & t2 & g1 & g2 & -> & -> & [-> ->] & t3 & t4 & g3 & g4 & -> & -> & (F & _ & _ & ->) &
      t5 & t6 & g5 & g6 & -> & -> & [-> ->] & t7 & t8 & g7 & g8 & -> & -> & (g9 & -> & F2 & L2 & _ & ->) &
      t9 & t10 & g10 & g11 & -> & -> & [-> ->] & t11 & t12 & g12 & g13 & -> & -> & (g14 & -> & F3 & L3 & _ & ->) & -> & -> & E).
    exists t3, t7, t11. split; [exact F|]. split; [destruct t7; [cbn in L2; lia|congruence]|]. split; [apply c_not_forall; auto|].
    split; [split; [destruct t11; [cbn in L3; lia|congruence]|exact F3]|]. split; auto. cbn. rewrite app_nil_r. auto.
  - intros (sp & mem & idx & B & N & Q & [Ni D] & E & -> & ->).
    exists kind, (sp ++ 34 :: mem ++ [34; 44] ++ idx), [], [mem; idx]. repeat split; auto.
    exists sp, (34 :: mem ++ [34; 44] ++ idx), [], [mem; idx]. repeat split; auto; [lia|].
    exists [34], (mem ++ [34; 44] ++ idx), [], [mem; idx]. repeat split; auto.
    exists mem, ([34; 44] ++ idx), [mem], [idx]. repeat split; auto.
    + exists []. repeat split; auto; [apply c_not_forall; auto|destruct mem; [congruence|cbn; lia]].
    + exists [34; 44], idx, [], [idx]. repeat split; auto. exists idx, [], [idx], []. rewrite app_nil_r. repeat split; auto.
      exists []. repeat split; auto. destruct idx; [congruence|cbn; lia].
Qed.
Lemma indication_match kind mem idx line : indication kind mem idx line ->
  exists t rest, re_match (indication_re kind) line = Some (t, [mem; idx], rest).
Proof.
  intros (sp & nl & -> & B & N & Q & D & E).
  exists (kind ++ sp ++ 34 :: mem ++ [34; 44] ++ idx), nl. apply re_match_unique.
  - rewrite <- !app_assoc. cbn. rewrite <- !app_assoc. auto.
  - apply indication_lang. exists sp, mem, idx. auto 8.
  - intros t' g' rest' Es L. apply indication_lang in L as (sp' & mem' & idx' & B' & N' & Q' & D' & E' & -> & ->).
    rewrite <- !app_assoc in Es. apply app_inv_head in Es.
    apply (span_unique is_space) in Es as [-> Es]; auto; try reflexivity. rewrite <- !app_comm_cons in Es. injection Es as Es. rewrite <- !app_assoc in Es.
    apply (span_unique (c_not 34)) in Es as [-> Es]; try apply c_not_forall; auto; try reflexivity. cbn in Es. injection Es as Es.
    destruct (digits_end_unique _ _ _ _ D D' E E' Es) as [-> ->]. auto.
Qed.
Lemma indication_match_inv kind line t g rest : re_match (indication_re kind) line = Some (t, g, rest) ->
  exists mem idx, g = [mem; idx] /\ indication kind mem idx line.
Proof.
  intro H. apply re_match_some in H as [-> L]. apply indication_lang in L as (sp & mem & idx & B & N & Q & D & E & -> & ->).
  exists mem, idx. split; auto. exists sp, rest. rewrite <- !app_assoc. cbn. rewrite <- !app_assoc. auto 8.
Qed.
Lemma indication_nomatch kind line : (forall mem idx, ~ indication kind mem idx line) -> re_match (indication_re kind) line = None.
Proof.
  intro H. destruct (re_match (indication_re kind) line) as [[[t g] rest]|] eqn:E; auto.
  apply indication_match_inv in E as (mem & idx & _ & I). exfalso. eapply H; eauto.
Qed.
Lemma cmti_is : CMTI_REGEX = indication_re (lit "+CMTI:"). Proof. reflexivity. Qed.
Lemma cdsi_is : CDSI_REGEX = indication_re (lit "+CDSI:"). Proof. reflexivity. Qed.
Lemma CDSI_dec line : (exists mem idx, indication (lit "+CDSI:") mem idx line) \/ (forall mem idx, ~ indication (lit "+CDSI:") mem idx line).
Proof.
  destruct (re_match (indication_re (lit "+CDSI:")) line) as [[[t g] rest]|] eqn:E.
  - left. apply indication_match_inv in E as (mem & idx & _ & I). eauto.
  - right. intros mem idx I. apply indication_match in I as (t & rest & F). congruence.
Qed.
