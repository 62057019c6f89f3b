(** Nothing is lost or invented while messages are collected. *)
From Coq Require Import Permutation.
From Verif Require Import Base PduModel RegexModel ModemCore ModemSpec WriteProofs MonadProofs SendSpec SendProofs TrackSpec CoverageSpec CoverageProofs
  SmsModel StoreSpec StoreLemmas ReadProofs StoreProofs ListSpec ListProofs ProcessProofs StoreFinal HandlerModel HandlerSpec HandlerProofs CollectModel CollectSpec TrieProofs
  CollectProofs CollectInv.

Theorem given_once mode mem attr d obs s : ~ In 34 mem -> sel d = mem -> (forall i content, stored d mem i = Some content -> readable mode content) ->
  evolves mode one_at_a_time (mk_site attr d []) obs s -> Forall (ordinary mode mem) obs ->
  exists ss, Forall2 (says mode) (gone obs) ss /\ Permutation (told obs ++ dropped obs ++ flat_map holds (threads s)) ss.
Proof.
  intros Q Sl Rd H F. pose proof (always_sane mode mem true attr d obs s Q Sl Rd H F) as [_ _ _ _ _ _ _ _ (ss & extra & G & P & E)].
  exists ss. rewrite (E eq_refl), app_nil_r in P. auto.
Qed.
Theorem none_lost mode mem attr d obs s : ~ In 34 mem -> sel d = mem -> (forall i content, stored d mem i = Some content -> readable mode content) ->
  evolves mode no_reuse (mk_site attr d []) obs s -> Forall (ordinary mode mem) obs ->
  exists ss extra, Forall2 (says mode) (gone obs) ss /\ Permutation (told obs ++ dropped obs ++ flat_map holds (threads s)) (ss ++ extra).
Proof.
  intros Q Sl Rd H F. pose proof (always_sane mode mem false attr d obs s Q Sl Rd H F) as [_ _ _ _ _ _ _ _ (ss & extra & G & P & E)].
  exists ss, extra. auto.
Qed.
Theorem none_invented mode mem attr d obs s : ~ In 34 mem -> sel d = mem -> (forall i content, stored d mem i = Some content -> readable mode content) ->
  evolves mode no_reuse (mk_site attr d []) obs s -> Forall (ordinary mode mem) obs ->
  forall m, In m (told obs) -> exists content, ((exists i, stored d mem i = Some content) \/ In content (came obs)) /\ says mode content m.
Proof.
  intros Q Sl Rd H F m I. pose proof (always_sane mode mem false attr d obs s Q Sl Rd H F) as [_ _ _ _ _ _ T _ _].
  rewrite Forall_forall in T. apply (T m). apply in_or_app. auto.
Qed.

(** ** Deleting everything *)
Lemma ledger_origin mode c obs c' : ledger mode c obs c' -> forall mem i content, c' mem i = Some content ->
  (exists k, c mem i = Some k /\ marks mode k content) \/ (exists k, In (Came mem i k) obs /\ marks mode k content).
Proof.
  assert (Back : forall (a b : cells) m j x, touched mode a b -> b m j = Some x -> exists k, a m j = Some k /\ marks mode k x) by (intros; eapply touched_back; eauto).
  induction 1 as [c c' T|c c1 m j k obs c' T E L IH|c c1 m j k obs c' T E L IH|c o obs c' O L IH]; intros mem i content C.
  - left. eauto.
  - apply IH in C as [(x & C & M)|(x & I & M)]; [|right; exists x; split; [right|]; auto].
    unfold put, same_cell in C. destruct (str_eqb_spec mem m) as [->|]; [destruct (Z.eqb_spec i j) as [->|]|]; cbn [andb] in C.
    + injection C as <-. right. exists k. split; [left|]; auto.
    + left. destruct (Back _ _ _ _ _ T C) as (y & Y & M'). exists y. split; auto. eapply marks_trans; eauto.
    + left. destruct (Back _ _ _ _ _ T C) as (y & Y & M'). exists y. split; auto. eapply marks_trans; eauto.
  - apply IH in C as [(x & C & M)|(x & I & M)]; [|right; exists x; split; [right|]; auto].
    unfold put, same_cell in C. destruct (str_eqb_spec mem m) as [->|]; [destruct (Z.eqb_spec i j) as [->|]|]; cbn [andb] in C; [discriminate| |];
      left; destruct (Back _ _ _ _ _ T C) as (y & Y & M'); exists y; split; auto; eapply marks_trans; eauto.
  - apply IH in C as [(x & C & M)|(x & I & M)]; [left; eauto|right; exists x; split; [right|]; auto].
Qed.
Theorem only_newer mode memory hd sts attr d text r g d1 attr1 ms ts obs s r2 g2 d2 :
  thread_step mode attr (Collecting (mk_collector memory hd (4 :: sts) CList)) (Some (text, r)) [] attr1 (Collecting (mk_collector memory hd (4 :: sts) (CWipe ms))) ->
  serves mode d text r g d1 -> (forall i content, stored d (sel d) i = Some content -> readable mode content) ->
  evolves mode any_step (mk_site attr1 d1 ts) obs s -> sel (machine s) = sel d -> serves mode (machine s) (lit "AT+CMGD=1,4" ++ [13]) r2 g2 d2 ->
  forall i content, In (i, content) g2 -> (exists m, In m ms /\ says mode content m) \/ (exists k, In (Came (sel d) i k) obs /\ marks mode k content).
Proof.
  intros T Sv Rd Ev Sl Sw i content I. inversion T as [|? ? ? ? ? ? ? C]; subst. inversion C as [| | | |? ? ? ? command order Cm Or| | | | | |]; subst; cbn [c_memory c_handing c_statuses c_spot] in *.
  cbn [Z.eqb Pos.eqb] in *.
  destruct (attempt command r) as [[ls|e]|] eqn:A; cbn [next_spot] in *; try discriminate.
  destruct (attempt_cases command r) as [(code & B & A')|[(ls' & A' & Er & G)|(e & A' & _)]]; try congruence.
  assert (ls' = ls) as -> by congruence. subst r. clear A'.
  destruct (list_serves mode d 4 command ls g d1 ltac:(lia) Cm G Sv) as (-> & es & c' & De & Nd & Ev4 & To & ->).
  rewrite (describes_lines _ _ _ De Nd) in *. cbn [fst snd] in *.
  match goal with E : CWipe _ = CWipe _ |- _ => injection E as E; subst ms end.
  pose proof (store_explained _ _ _ _ _ Ev) as L. cbn [machine stored] in L.
  assert (C2 : stored (machine s) (sel d) i = Some content).
  { destruct r2 as [ls2|]; [|apply serves_still in Sw as [-> _]; [destruct I|discriminate]].
    destruct (attempt_cases [] (Lines ls2)) as [(code & B & _)|[(x & _ & [= <-] & G2)|(e & _ & F)]].
    - apply (serves_busy _ _ _ _ _ _ _ B) in Sw as [-> _]. destruct I.
    - apply wipe_serves in Sw as (_ & W & _); auto. rewrite Sl in W. apply W. auto.
    - apply (serves_failing _ _ _ _ _ _ F) in Sw as [-> _]. destruct I. }
  destruct (ledger_origin _ _ _ _ L _ _ _ C2) as [(k & Ck & M)|R]; [left|right; auto].
  destruct (touched_back _ _ _ _ _ _ To Ck) as (k0 & C0 & M0). destruct (Rd _ _ C0) as (m & Rm). exists m. split.
  - apply in_map_iff. exists (i, m). split; auto. apply Ev4. exists k0. auto.
  - apply (marks_says _ _ _ m (marks_trans _ _ _ _ M0 M)). exists m. split; auto. apply same_refl.
Qed.
