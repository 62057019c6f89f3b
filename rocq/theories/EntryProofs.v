From Verif Require Import Base TrieModel TrieSpec TrieProofs TrieFinal TermModel TermSpec TermProofs EntrySpec RegexProofs.

(** ** Text *)
Lemma tspace_white c : tspace c = true <-> white c.
Proof. unfold tspace, white. rewrite orb_true_iff, andb_true_iff, !Z.leb_le, Z.eqb_eq. tauto. Qed.
Lemma tspace_not c : tspace c = false <-> ~ white c.
Proof. rewrite <- tspace_white. destruct (tspace c); split; congruence. Qed.
Lemma tlstrip_skip a s : Forall white a -> tlstrip (a ++ s) = tlstrip s.
Proof. induction 1 as [|c a W _ IH]; auto. cbn. apply tspace_white in W. rewrite W. auto. Qed.
Lemma tlstrip_split s : exists a, s = a ++ tlstrip s /\ Forall white a /\ match tlstrip s with [] => True | c :: _ => ~ white c end.
Proof.
  induction s as [|c s (a & E & F & H)]; [exists []; cbn; auto|]. cbn. destruct (tspace c) eqn:W.
  - exists (c :: a). cbn. rewrite <- E. split; auto. split; auto. constructor; auto. apply tspace_white. auto.
  - exists []. split; auto. split; auto. apply tspace_not. auto.
Qed.
Lemma tlstrip_id s : match s with [] => True | c :: _ => ~ white c end -> tlstrip s = s.
Proof. destruct s as [|c s]; auto. intro W. cbn. apply tspace_not in W. rewrite W. auto. Qed.
Lemma Forall_rev' {A} (P : A -> Prop) l : Forall P l -> Forall P (rev l).
Proof. rewrite !Forall_forall. intros H x I. apply H, in_rev. auto. Qed.
Lemma tstrip_trimmed s : trimmed s (tstrip s).
Proof.
  unfold tstrip. destruct (tlstrip_split s) as (a & E & Fa & H). destruct (tlstrip_split (rev (tlstrip s))) as (b & E' & Fb & H').
  set (t := tlstrip s) in *. set (u := tlstrip (rev t)) in *. exists a, (rev b).
  assert (Et : t = rev u ++ rev b) by (rewrite <- rev_app_distr, <- E', rev_involutive; auto). split; [rewrite E at 1; f_equal; auto|]. split; auto. split; [apply Forall_rev'; auto|]. split.
  - destruct (rev u) as [|c r]; auto. rewrite Et in H. exact H.
  - intros (t' & c & Er & W). assert (Eu : u = rev (t' ++ [c])) by (rewrite <- Er, rev_involutive; auto). rewrite rev_app_distr in Eu. cbn in Eu. rewrite Eu in H'. contradiction.
Qed.
Lemma trimmed_tstrip s t : trimmed s t -> t = tstrip s.
Proof.
  intros (a & b & -> & Fa & Fb & H & H'). unfold tstrip. rewrite tlstrip_skip by auto. destruct t as [|c t].
  - cbn. rewrite <- (app_nil_r b), tlstrip_skip by auto. reflexivity.
  - rewrite (tlstrip_id ((c :: t) ++ b)) by exact H. rewrite rev_app_distr, tlstrip_skip by (apply Forall_rev'; auto).
    rewrite tlstrip_id, rev_involutive; auto. destruct (rev (c :: t)) as [|x l] eqn:E; auto. intro W. apply H'.
    exists (rev l), x. split; auto. rewrite <- (rev_involutive (c :: t)), E. reflexivity.
Qed.
Lemma tupper_capitals s t : capitals s t <-> t = tupper s.
Proof.
  unfold capitals, capital, tupper. split.
  - induction 1 as [|x y s t C _ IH]; auto. cbn. rewrite IH. destruct (_ && _); subst; auto.
  - intros ->. induction s as [|x s IH]; cbn; constructor; auto. destruct (_ && _); auto.
Qed.
Definition small (w : str) : Prop := Forall (fun c => ~ 65 <= c <= 90) w.
Definition low (c : Z) : Z := if (65 <=? c) && (c <=? 90) then c + 32 else c.
Lemma low_small c : ~ 65 <= low c <= 90.
Proof. unfold low. destruct (65 <=? c) eqn:A, (c <=? 90) eqn:B; cbn; apply Z.leb_le in A || apply Z.leb_gt in A; apply Z.leb_le in B || apply Z.leb_gt in B; lia. Qed.
Lemma low_spell x y : ~ 65 <= x <= 90 -> (y = x \/ 97 <= x <= 122 /\ y = x - 32) <-> low y = x.
Proof.
  intro N. unfold low. destruct (65 <=? y) eqn:A, (y <=? 90) eqn:B; cbn; apply Z.leb_le in A || apply Z.leb_gt in A; apply Z.leb_le in B || apply Z.leb_gt in B; lia.
Qed.
Lemma tlower_map s : tlower s = map low s. Proof. reflexivity. Qed.
Lemma spells_lower w s : small w -> spells w s <-> tlower s = w.
Proof.
  intro N. rewrite tlower_map. unfold spells. split.
  - induction 1 as [|x y w s H _ IH]; auto. inversion_clear N. cbn. f_equal; auto. apply low_spell; auto.
  - intros <-. induction s as [|y s IH]; cbn; constructor; auto.
    + apply low_spell; auto. apply low_small.
    + apply IH. inversion N; auto.
Qed.
Lemma tlower_small s : small (tlower s).
Proof. rewrite tlower_map. apply Forall_forall. intros c H. apply in_map_iff in H as (x & <- & _). apply low_small. Qed.
Lemma same_word_lower a b : same_word a b <-> tlower a = tlower b.
Proof.
  unfold same_word. split.
  - intros (w & N & A & B). apply spells_lower in A, B; auto. congruence.
  - intro E. exists (tlower a). pose proof (tlower_small a) as Sm. split; auto. split; apply spells_lower; auto.
Qed.
Lemma begins_lower w s : small w -> begins w s <-> startswith (tlower s) w = true.
Proof.
  intro N. rewrite startswith_app. unfold begins. split.
  - intros (a & b & -> & Sp). apply spells_lower in Sp; auto. exists (tlower b). rewrite !tlower_map, map_app, <- tlower_map, Sp. auto.
  - intros (r & E). rewrite tlower_map in E. exists (firstn (length w) s), (skipn (length w) s). rewrite firstn_skipn. split; auto.
    apply spells_lower; auto. rewrite tlower_map, <- firstn_map, E, firstn_app, firstn_all, Nat.sub_diag. cbn. apply app_nil_r.
Qed.
Lemma tsplit_some s c : tsplit s = Some c <-> exists a, s = a ++ [32] ++ c /\ ~ In 32 a.
Proof.
  induction s as [|x s IH]; cbn.
  - split; [discriminate|]. intros (a & E & _). destruct a; discriminate E.
  - destruct (x =? 32) eqn:E.
    + apply Z.eqb_eq in E as ->. split.
      * intro H. injection H as ->. exists []. auto.
      * intros (a & H & N). destruct a as [|y a]; [injection H as ->; auto|]. injection H as <- _. exfalso. apply N. left. auto.
    + apply Z.eqb_neq in E. rewrite IH. split.
      * intros (a & -> & N). exists (x :: a). split; auto. intros [H|H]; auto.
      * intros (a & H & N). destruct a as [|y a]; [injection H as -> _; contradiction|]. injection H as -> ->. exists a. split; auto. intro. apply N. right. auto.
Qed.
Lemma tsplit_lower s : tsplit (tlower s) = option_map tlower (tsplit s).
Proof.
  rewrite !tlower_map. induction s as [|x s IH]; auto. cbn. rewrite IH. assert (E : (low x =? 32) = (x =? 32)).
  { unfold low. destruct (65 <=? x) eqn:A, (x <=? 90) eqn:B; cbn; auto. apply Z.leb_le in A, B. destruct (x =? 32) eqn:C, (x + 32 =? 32) eqn:D; auto; apply Z.eqb_eq in C || apply Z.eqb_eq in D; lia. }
  rewrite E. destruct (x =? 32); auto.
Qed.

(** ** TAB *)
Lemma press_tab e limit : press e limit [9] = commandCompletion e. Proof. reflexivity. Qed.
Lemma refresh_line_run w : refresh_line w = (Ok tt, mk_tworld (tm w) (answers w) (outs w ++ [OScreen (refresh_text (tm w) (zlen (buf (tm w))))])).
Proof. unfold refresh_line, tbind, tget. apply refresh_run. Qed.
Lemma screen_only s : on_screen (OScreen s). Proof. exists s. auto. Qed.
Ltac shown := repeat (apply Forall_cons; [first [right; reflexivity|left; apply screen_only]|]); apply Forall_nil.
Lemma syntax_runs e c r w w' : printCommandSyntax e c w = (r, w') ->
  shows_syntax e c r w w' \/ ~ present (completion e) c /\ w' = w /\ exists x, r = Err x /\ t_get (completion e) c = Err x.
Proof.
  unfold printCommandSyntax. destruct (t_get (completion e) c) as [[h|]|x] eqn:G.
  - rewrite Z.ltb_antisym. destruct (h_fields h <=? 2) eqn:L.
    + intro H. injection H as <- <-. left. exists (Some h). rewrite L. auto.
    + cbn [negb]. destruct (existsb _ _) eqn:X.
      * intro H. injection H as <- <-. left. exists (Some h). rewrite L, X. auto.
      * unfold tbind, emit. rewrite refresh_line_run. cbn. intro H. injection H as <- <-. left. exists (Some h). rewrite L, X. split; auto. split; auto. split.
        -- unfold only_shows. cbn. split; auto. split; auto. rewrite <- app_assoc. eexists. split; [reflexivity|]. shown.
        -- cbn. rewrite <- app_assoc, skipn_app, skipn_all, Nat.sub_diag. left. auto.
  - intro H. injection H as <- <-. left. exists None. auto.
  - intro H. injection H as <- <-. right. split; [|eauto]. intros [v H]. unfold stored in H. congruence.
Qed.
Section Tab.
Context (e : env) (ops : list (op (option help))) (table : completion e = run ops).
Lemma matches_iff p k : In k (t_keys (completion e) (Some p)) <-> matching e p k.
Proof. rewrite table. unfold matching. rewrite table. apply keys_prefix. Qed.
Lemma get_error k x : t_get (completion e) k = Err x -> x = KeyError.
Proof.
  generalize (completion e). induction k as [|c k IH]; intros t H; cbn in H.
  - destruct (entry t) as [[[|? ?] v]|]; congruence.
  - destruct (dget c (slots t)); [eauto|]. destruct (entry t) as [[k' v]|]; [match type of H with (if ?b then _ else _) = _ => destruct b end|]; congruence.
Qed.
Lemma syntax_run c w : exists r w', printCommandSyntax e c w = (r, w') /\
  (present (completion e) c -> shows_syntax e c r w w') /\ (~ present (completion e) c -> r = Err KeyError /\ w' = w).
Proof.
  destruct (printCommandSyntax e c w) as [r w'] eqn:E. exists r, w'. split; auto. destruct (syntax_runs e c r w w' E) as [H|(N & -> & x & -> & G)].
  - split; auto. intro N. exfalso. destruct H as (h & H & _). apply N. exists h. auto.
  - split; [contradiction|]. intros _. apply get_error in G as ->. auto.
Qed.
Lemma completion_run w p : command_line (buf (tm w)) p -> commandCompletion e w =
  match t_keys (completion e) (Some p) with
  | [] => match p with [] => traise IndexError | _ => if from_end p 1 =? 61 then printCommandSyntax e (removelast p) else tret tt end
  | [m] => if str_eqb m p then printCommandSyntax e p else tput (set_line m (zlen m)) ;> refresh (zlen m)
  | _ => let commonPrefix := t_longestCommonPrefix (completion e) (buf (tm w)) in
      tput (set_line commonPrefix (zlen commonPrefix)) ;> emit (OScreen [10]) ;> emit OText ;> emit (OScreen [10]) ;> refresh (zlen commonPrefix)
  end w.
Proof.
  intros (s & Tr & C). apply trimmed_tstrip in Tr as ->. apply tupper_capitals in C as ->. unfold commandCompletion, tbind at 1, tget. cbn beta iota zeta. destruct (t_keys _ _) as [|m [|m' l]]; auto.
Qed.
Lemma last_char (c : str) x : from_end (c ++ [x]) 1 = x /\ removelast (c ++ [x]) = c.
Proof. unfold from_end. rewrite app_length. cbn [length]. split; [|apply removelast_last]. replace (length c + 1 - 1)%nat with (length c + 0)%nat by lia. rewrite app_nth2_plus. auto. Qed.
Theorem tab_none limit w p : command_line (buf (tm w)) p -> (forall k, ~ matching e p k) ->
  (p = [] -> press e limit [9] w = (Err IndexError, w)) /\
  (forall c, p = c ++ [61] -> exists r w', press e limit [9] w = (r, w') /\
     (present (completion e) c -> shows_syntax e c r w w') /\ (~ present (completion e) c -> r = Err KeyError /\ w' = w)) /\
  (p <> [] -> ~ (exists c, p = c ++ [61]) -> press e limit [9] w = (Ok tt, w)).
Proof.
  intros C N. rewrite press_tab, (completion_run w p C). destruct (t_keys _ _) as [|k l] eqn:K; [|exfalso; apply (N k), matches_iff; rewrite K; left; auto]. split; [intros ->; auto|]. split.
  - intros c ->. destruct (last_char c 61) as [L R]. destruct (c ++ [61]) as [|x y] eqn:E; [destruct c; discriminate E|]. rewrite L, R. apply syntax_run.
  - intros Ne Nc. destruct p as [|x q] eqn:E; [contradiction|]. destruct (exists_last (l := x :: q)) as (c & y & E'); [discriminate|]. rewrite E' in *. destruct (last_char c y) as [-> _].
    destruct (y =? 61) eqn:Y; auto. apply Z.eqb_eq in Y as ->. exfalso. eauto.
Qed.
Theorem tab_one limit w p k : command_line (buf (tm w)) p -> matching e p k -> (forall k', matching e p k' -> k' = k) ->
  (k = p -> exists r w', press e limit [9] w = (r, w') /\ shows_syntax e k r w w') /\
  (k <> p -> exists w', press e limit [9] w = (Ok tt, w') /\ replaced k w w').
Proof.
  intros C M U. rewrite press_tab, (completion_run w p C). pose proof (proj2 (matches_iff p k) M) as In_k. pose proof (keys_nodup ops (Some p)) as Nd. rewrite <- table in Nd.
  assert (K : t_keys (completion e) (Some p) = [k]).
  { destruct (t_keys _ _) as [|m [|m' l]] eqn:K.
    - contradiction.
    - destruct In_k as [->|[]]; auto.
    - exfalso. assert (m = k) by (apply U, matches_iff; rewrite K; left; auto). assert (m' = k) by (apply U, matches_iff; rewrite K; right; left; auto). subst. inversion Nd as [|? ? Ni _]; subst. apply Ni. left. auto. }
  rewrite K. split.
  - intros ->. rewrite str_eqb_refl. destruct (syntax_run p w) as (r & w' & R & H & _). exists r, w'. split; auto. apply H. apply M.
  - intro Ne. destruct (str_eqb k p) eqn:E; [apply str_eqb_eq in E; contradiction|]. unfold tbind, tput. rewrite refresh_run. eexists. split; [reflexivity|]. unfold replaced, same_but_line. cbn. split; [|split; [auto 7|split; auto]].
    + split; cbn; [rewrite app_nil_r|]; auto.
    + eexists. split; [reflexivity|]. shown.
Qed.
Theorem tab_many limit w p k1 k2 : command_line (buf (tm w)) p -> matching e p k1 -> matching e p k2 -> k1 <> k2 ->
  exists line w', press e limit [9] w = (Ok tt, w') /\ replaced line w w' /\ line = t_longestCommonPrefix (run ops) (buf (tm w)).
Proof.
  intros C M1 M2 Ne. rewrite press_tab, (completion_run w p C). apply matches_iff in M1, M2. destruct (t_keys _ _) as [|m [|m' l]] eqn:K.
  - contradiction.
  - destruct M1 as [->|[]], M2 as [->|[]]. contradiction.
  - cbv zeta. unfold tbind, tput, emit. rewrite refresh_run. eexists _, _. split; [reflexivity|]. split; [|rewrite <- table; reflexivity]. unfold replaced, same_but_line. cbn. split; [|split; [auto 7|split; auto]].
    + split; cbn; [rewrite app_nil_r|]; auto.
    + rewrite <- !app_assoc. eexists. split; [reflexivity|]. shown.
Qed.
End Tab.
