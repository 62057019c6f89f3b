From Verif Require Import Base TrieModel TrieSpec TrieProofs TrieFinal TermModel TermSpec TermProofs EntrySpec EntryProofs EnterProofs CommandData TableSpec RegexProofs.

Definition table_ops : list (op (option help)) := map (fun ch => Set_ (fst ch) (snd ch)) ATCOMMANDS.
Lemma command_trie_run : command_trie = run table_ops.
Proof. unfold command_trie, run, table_ops. generalize (@empty (option help)) ATCOMMANDS. intros t l. revert t. induction l as [|[k v] l IH]; intro t; [reflexivity|]. cbn [fold_left map step fst snd]. apply IH. Qed.
Lemma trie_keys k : In k (t_keys command_trie None) <-> present command_trie k.
Proof. rewrite command_trie_run. exact (keys_all table_ops k). Qed.
Definition help_dec (a b : option help) : {a = b} + {a <> b}.
Proof. repeat decide equality. Defined.
Definition last_help (k : str) : option (option help) := option_map snd (find (fun ch => str_eqb (fst ch) k) (rev ATCOMMANDS)).
Definition stored_last (k : str) : bool :=
  match t_get command_trie k, last_help k with Ok v, Some v' => if help_dec v v' then true else false | _, _ => false end.
Lemma keys_check : forallb stored_last (t_keys command_trie None) = true.
Proof. vm_compute. reflexivity. Qed.
Lemma names_check : forallb (fun ch => stored_last (fst ch)) ATCOMMANDS = true.
Proof. vm_compute. reflexivity. Qed.
Lemma last_help_spec k v : last_help k = Some v <-> defined_as k v.
Proof.
  unfold last_help, defined_as. generalize ATCOMMANDS. intro l. induction l as [|[k' v'] l IH] using rev_ind.
  - cbn. split; [discriminate|]. intros (a & b & E & _). destruct a; discriminate E.
  - rewrite rev_app_distr. cbn [rev app find fst]. destruct (str_eqb k' k) eqn:E.
    + apply str_eqb_eq in E as ->. cbn. split.
      * intro H. injection H as ->. exists l, []. auto.
      * intros (a & b & H & N). destruct (exists_last (l := (k, v) :: b)) as (b' & x & Eb); [discriminate|]. rewrite Eb, app_assoc in H. apply app_inj_tail in H as [_ <-].
        destruct b as [|y b]; [destruct b' as [|? [|? ?]]; inversion Eb; auto|]. exfalso. apply N. destruct b' as [|z b']; [discriminate Eb|]. injection Eb as _ Eb. rewrite Eb, map_app. apply in_app_iff. right. left. auto.
    + rewrite IH. split.
      * intros (a & b & -> & N). exists a, (b ++ [(k', v')]). rewrite <- app_assoc. split; auto. rewrite map_app. intro I. apply in_app_iff in I as [I|[I|[]]]; auto. cbn in I. subst. rewrite TrieProofs.str_eqb_refl in E. discriminate.
      * intros (a & b & H & N). destruct (exists_last (l := (k, v) :: b)) as (b' & x & Eb); [discriminate|]. rewrite Eb, app_assoc in H. apply app_inj_tail in H as [-> <-].
        destruct b' as [|z b']; [injection Eb as -> -> _; rewrite TrieProofs.str_eqb_refl in E; discriminate|]. injection Eb as <- ->. exists a, b'. split; auto. intro I. apply N. rewrite map_app. apply in_app_iff. auto.
Qed.
Lemma values_check : forallb (fun ch => match snd ch with Some h => forallb (fun z => negb (z =? 0)) (match h_values h with Some l => l | None => [] end) | None => true end) ATCOMMANDS = true.
Proof. vm_compute. reflexivity. Qed.
Lemma cgmi_check : existsb (str_eqb (lit "AT+CGMI")) (t_keys command_trie None) = true.
Proof. vm_compute. reflexivity. Qed.
#[local] Opaque command_trie ATCOMMANDS.
Theorem table_stored k v : stored command_trie k v <-> defined_as k v.
Proof.
  unfold stored. split; intro H.
  - assert (P : In k (t_keys command_trie None)) by exact (proj2 (trie_keys k) (ex_intro _ v H)).
    pose proof keys_check as C. rewrite forallb_forall in C. specialize (C k P). unfold stored_last in C. rewrite H in C. destruct (last_help k) as [v'|] eqn:L; [|discriminate]. destruct (help_dec v v') as [->|]; [|discriminate]. exact (proj1 (last_help_spec k v') L).
  - pose proof H as (a & b & E & _). pose proof names_check as C. rewrite forallb_forall in C. specialize (C (k, v)). rewrite E in C. specialize (C ltac:(apply in_or_app; right; left; auto)). unfold stored_last in C. cbn [fst] in C.
    apply last_help_spec in H. rewrite H in C. destruct (t_get command_trie k) as [v'|]; [|discriminate]. destruct (help_dec v' v) as [->|]; [reflexivity|discriminate].
Qed.
(** help never fails *)
Definition good_help (h : option help) : bool :=
  match h with Some h => (h_fields h =? 2) || (5 <=? h_fields h) && pairs (h_values h) && pairs (h_returns h) | None => false end.
Lemma good_check : forallb (fun ch => good_help (snd ch)) ATCOMMANDS = true.
Proof. vm_compute. reflexivity. Qed.
Lemma stored_good k v : t_get command_trie k = Ok v -> good_help v = true.
Proof. intro H. pose proof (proj1 (table_stored k v) H) as (a & b & E & _). pose proof good_check as C. rewrite forallb_forall in C. apply (C (k, v)). rewrite E. apply in_or_app. right. left. auto. Qed.
Definition succeeds (s : T unit) : Prop := forall w, fst (s w) = Ok tt.
Lemma succeeds_bind s1 s2 : succeeds s1 -> succeeds s2 -> succeeds (s1 ;> s2).
Proof. intros H1 H2 w. unfold tbind. specialize (H1 w). destruct (s1 w) as [r w']. cbn in H1. subst. apply H2. Qed.
Lemma succeeds_emit o : succeeds (emit o). Proof. intro w. auto. Qed.
Lemma succeeds_refresh : succeeds refresh_line. Proof. intro w. rewrite refresh_line_run. auto. Qed.
Lemma help_succeeds e c : completion e = command_trie -> succeeds (printCommandHelp e c).
Proof.
  intro Ct. unfold printCommandHelp. destruct (_ =? 0); [apply succeeds_bind; [apply succeeds_emit|apply succeeds_refresh]|]. rewrite Ct. destruct (t_get _ _) as [[h|]|x] eqn:G.
  - apply stored_good in G. unfold good_help in G. apply succeeds_bind; [apply succeeds_emit|]. destruct (h_fields h =? 2); [apply succeeds_refresh|]. cbn [orb] in G. apply andb_true_iff in G as [G G3]. apply andb_true_iff in G as [G1 G2].
    rewrite Z.ltb_antisym, G1, G2, G3. cbn. apply succeeds_bind; [apply succeeds_emit|apply succeeds_refresh].
  - apply succeeds_bind; [apply succeeds_emit|apply succeeds_refresh].
  - rewrite (get_error e _ x) by (rewrite Ct; eauto). apply succeeds_bind; [apply succeeds_emit|apply succeeds_refresh].
Qed.
Lemma list_succeeds e : completion e = command_trie -> succeeds (listCommands e).
Proof.
  intro Ct. unfold listCommands. apply succeeds_bind; [apply succeeds_emit|]. apply succeeds_bind; [apply succeeds_emit|]. rewrite Ct. replace (existsb _ _) with false; [apply succeeds_refresh|]. vm_compute. reflexivity.
Qed.
Theorem table_local e limit w s : completion e = command_trie -> inside (tm w) -> typing (tm w) = false -> trimmed (buf (tm w)) s -> asks_help s \/ lists e s ->
  exists w', press e limit [10] w = (Ok tt, w') /\ entered [s] (tm w) (tm w').
Proof.
  intros Ct I Ty Tr H. destruct (enter_local e limit w s I Ty Tr H) as (r & w' & os & R & En & _). exists w'. split; auto. rewrite R. f_equal.
  assert (Ne : s <> []). { intros ->. destruct H as [[[L _]|(a & b & E & Sp)]|H]; [cbn in L; lia| |].
    - symmetry in E. apply app_eq_nil in E as [-> ->]. inversion Sp.
    - apply lists_model in H as [H _]. discriminate H. }
  rewrite press_enter, confirm_unfold, (confirm_act e _ w s Ty (trimmed_not_empty _ _ Tr Ne) Tr) in R. set (again := match limit with O => traise OutOfFuel | S n => confirm e n end) in *.
  assert (X : succeeds (act e again s)).
  { destruct (help_cases s) as [A|A]; [destruct (act_help e again s A) as [c ->]; apply help_succeeds; auto|]. destruct H as [H|H]; [contradiction|].
    rewrite (act_no_help e again s A). apply lists_model in H as (-> & [->|[H|(c & -> & H)]]).
    - apply succeeds_bind; [apply succeeds_emit|]. apply succeeds_bind; [apply succeeds_emit|apply succeeds_refresh].
    - rewrite H. destruct (str_eqb _ (lit "lscat")); [|apply list_succeeds; auto]. apply succeeds_bind; [apply succeeds_emit|]. apply succeeds_bind; [apply succeeds_emit|apply succeeds_refresh].
    - rewrite H. destruct (str_eqb _ (lit "lscat")). { apply succeeds_bind; [apply succeeds_emit|]. apply succeeds_bind; [apply succeeds_emit|apply succeeds_refresh]. }
      destruct (str_eqb _ (lit "ls")); apply list_succeeds; auto. }
  specialize (X (mk_tworld (taken s (tm w)) (answers w) (outs w))). rewrite R in X. exact X.
Qed.
(** completion *)
Lemma good_syntax e c r w w' : completion e = command_trie -> shows_syntax e c r w w' -> r = Ok tt /\ tm w' = tm w.
Proof.
  intros Ct (h & St & H). rewrite Ct in St. pose proof (stored_good c h St) as G. destruct h as [h|]; [|discriminate G]. destruct (h_fields h <=? 2); [destruct H as [-> ->]; auto|].
  unfold good_help in G. destruct (existsb _ _) eqn:X; [|destruct H as (-> & (-> & _) & _); auto]. exfalso.
  apply existsb_exists in X as (z & Iz & Ez). apply Z.eqb_eq in Ez as <-. destruct (h_values h) as [l|] eqn:V; [|contradiction]. cbn [pairs] in G.
  pose proof (values_check) as K. pose proof (proj1 (table_stored _ _) St) as (a & b & E & _). rewrite forallb_forall in K. specialize (K (c, Some h)). rewrite E in K. specialize (K ltac:(apply in_or_app; right; left; auto)). cbn in K. rewrite V in K.
  rewrite forallb_forall in K. specialize (K 0 Iz). discriminate K.
Qed.
Lemma matching_keys e p k : completion e = command_trie -> matching e p k <-> In k (t_keys command_trie None) /\ prefix_of p k.
Proof. intro Ct. unfold matching. rewrite Ct. split; intros [H1 H2]; split; auto; [exact (proj2 (trie_keys k) H1)|exact (proj1 (trie_keys k) H1)]. Qed.
Theorem table_tab e limit w p : completion e = command_trie -> command_line (buf (tm w)) p ->
  (exists w', press e limit [9] w = (Ok tt, w')) \/
  press e limit [9] w = (Err KeyError, w) /\ exists c, p = c ++ [61] /\ (forall v, ~ defined_as c v) /\ forall k v, defined_as k v -> ~ prefix_of p k.
Proof.
  intros Ct C. pose proof (eq_trans Ct command_trie_run) as Tb. destruct (t_keys (completion e) (Some p)) as [|k [|k2 l]] eqn:K.
  - assert (N : forall k, ~ matching e p k) by (intros k M; apply (matches_iff e table_ops Tb) in M; rewrite K in M; exact M).
    destruct (tab_none e table_ops Tb limit w p C N) as (H0 & H1 & H2). destruct p as [|x q].
    + exfalso. apply (N (lit "AT+CGMI")). apply (matching_keys e [] (lit "AT+CGMI") Ct). split; [|eexists; reflexivity]. pose proof cgmi_check as X. apply existsb_exists in X as (k & Ik & Ek). apply str_eqb_eq in Ek. rewrite Ek. exact Ik.
    + destruct (exists_last (l := x :: q)) as (c & y & E); [discriminate|]. rewrite E in *. destruct (Z.eq_dec y 61) as [->|Ny].
      * destruct (H1 c eq_refl) as (r & w' & R & P & Np). assert (D : present (completion e) c \/ ~ present (completion e) c).
        { unfold present, stored. destruct (t_get (completion e) c) as [v|x']; [left; eauto|right; intros [v X]; discriminate X]. }
        destruct D as [D|D].
        -- left. apply P in D. apply (good_syntax e c r w w' Ct) in D as [-> _]. eauto.
        -- right. destruct (Np D) as [-> ->]. split; auto. exists c. split; auto. split.
           ++ intros v X. apply D. exists v. rewrite Ct. exact (proj2 (table_stored _ v) X).
           ++ intros k v X Pr. apply (N k). split; auto. exists v. rewrite Ct. exact (proj2 (table_stored _ v) X).
      * left. exists w. apply H2; [destruct c; discriminate|]. intros (c' & X). apply app_inj_tail in X as [_ X]. contradiction.
  - assert (M : matching e p k) by (apply (matches_iff e table_ops Tb); rewrite K; left; auto).
    destruct (tab_one e table_ops Tb limit w p k C M) as (H1 & H2). { intros k' M'. apply (matches_iff e table_ops Tb) in M'. rewrite K in M'. destruct M' as [->|[]]; auto. }
    left. destruct (str_eqb k p) eqn:E.
    + apply str_eqb_eq in E. destruct (H1 E) as (r & w' & R & Sy). apply (good_syntax e k r w w' Ct) in Sy as [-> _]. eauto.
    + destruct H2 as (w' & R & _); [intros ->; rewrite TrieProofs.str_eqb_refl in E; discriminate|]. eauto.
  - left. pose proof (keys_nodup table_ops (Some p)) as Nd. rewrite <- Tb, K in Nd. destruct (tab_many e table_ops Tb limit w p k k2 C) as (line & w' & R & _); eauto.
    + apply (matches_iff e table_ops Tb). rewrite K. left. auto.
    + apply (matches_iff e table_ops Tb). rewrite K. right. left. auto.
    + intros ->. inversion Nd as [|? ? X _]; subst. apply X. left. auto.
Qed.
Definition all_prefixes (l : list str) : list str := flat_map (fun k => map (fun n => firstn n k) (seq 0 (S (length k)))) l.
Lemma in_prefixes p k l : In k l -> prefix_of p k -> In p (all_prefixes l).
Proof.
  intros I [r E]. apply in_flat_map. exists k. split; auto. apply in_map_iff. exists (length p). split.
  - rewrite E, firstn_app, firstn_all, Nat.sub_diag. cbn. apply app_nil_r.
  - apply in_seq. rewrite E, app_length. lia.
Qed.
Definition erase_check : bool := forallb (fun p => (Nat.leb (length (t_keys command_trie (Some p))) 1) ||
  Bool.eqb (str_eqb (t_longestCommonPrefix command_trie p) []) (str_eqb p (lit "AT+CRE"))) (all_prefixes (t_keys command_trie None)).
Lemma erase_checked : erase_check = true. Proof. vm_compute. reflexivity. Qed.
Theorem table_many e limit w p k1 k2 v1 v2 : completion e = command_trie -> command_line p p -> buf (tm w) = p ->
  defined_as k1 v1 -> defined_as k2 v2 -> prefix_of p k1 -> prefix_of p k2 -> k1 <> k2 ->
  exists line w', press e limit [9] w = (Ok tt, w') /\ replaced line w w' /\ (line = [] <-> p = lit "AT+CRE") /\ (p <> lit "AT+CRE" -> prefix_of p line) /\
    forall k v, defined_as k v -> prefix_of p k -> prefix_of line k.
Proof.
  intros Ct C B D1 D2 P1 P2 Ne. pose proof (eq_trans Ct command_trie_run) as Tb. assert (M : forall k v, defined_as k v -> prefix_of p k -> matching e p k). { intros k v D P. split; auto. exists v. rewrite Ct. exact (proj2 (table_stored k v) D). }
  assert (Cl : command_line (buf (tm w)) p) by (rewrite B; auto).
  destruct (tab_many e table_ops Tb limit w p k1 k2 Cl (M k1 v1 D1 P1) (M k2 v2 D2 P2) Ne) as (line & w' & R & Rp & El). exists line, w'. split; auto. split; auto. rewrite B in El.
  assert (Er : line = [] <-> p = lit "AT+CRE").
  { pose proof erase_checked as K. unfold erase_check in K. rewrite forallb_forall in K. assert (I1 : In k1 (t_keys command_trie None)) by exact (proj2 (trie_keys k1) (ex_intro _ v1 (proj2 (table_stored k1 v1) D1))).
    specialize (K p (in_prefixes p k1 _ I1 P1)). apply orb_true_iff in K as [K|K].
    - exfalso. pose proof (proj2 (matches_iff e table_ops Tb p k1) (M k1 v1 D1 P1)) as X1. pose proof (proj2 (matches_iff e table_ops Tb p k2) (M k2 v2 D2 P2)) as X2. rewrite Ct in X1, X2.
      destruct (t_keys command_trie (Some p)) as [|a [|b l]]; [contradiction| |discriminate K]. destruct X1 as [->|[]], X2 as [->|[]]. apply Ne. reflexivity.
    - rewrite command_trie_run, <- El in K. apply Bool.eqb_prop in K. destruct (str_eqb line []) eqn:E1, (str_eqb p (lit "AT+CRE")) eqn:E2; try discriminate K.
      + apply str_eqb_eq in E1, E2. split; intros _; assumption.
      + clear - E1 E2. split; intro X; [rewrite X in E1; discriminate E1|rewrite X, TrieProofs.str_eqb_refl in E2; discriminate E2]. }
  split; [exact Er|]. destruct (lcp_general table_ops p) as [G1 G2]. cbv zeta in G1, G2. rewrite <- El in G1, G2. split.
  - clear - Er G2. intro N. destruct G2 as [G2|G2]; [|exact G2]. apply Er in G2. contradiction.
  - intros k v D P. apply G1; [|exact P]. rewrite <- command_trie_run. exists v. exact (proj2 (table_stored k v) D).
Qed.
(** ** The raw terminal *)
Theorem raw_run keys exit rest : ~ In EXIT_CHARACTER keys -> exit = [] \/ exit = EXIT_CHARACTER :: rest ->
  raw_loop (keys ++ exit) = (flat_map (fun k => if str_eqb k [10] then [13] else k) keys, List.concat keys).
Proof.
  induction keys as [|k keys IH]; intros N E.
  - destruct E as [->| ->]; reflexivity.
  - cbn [app raw_loop flat_map List.concat]. destruct (str_eqb k EXIT_CHARACTER) eqn:X; [apply str_eqb_eq in X; exfalso; apply N; left; auto|].
    rewrite IH; auto; [|intro; apply N; right; auto]. destruct (str_eqb k [10]); auto.
Qed.
