From Verif Require Import Base TrieModel TrieSpec TermModel TermSpec TermProofs EntrySpec EntryProofs RegexProofs.

Lemma press_enter e limit : press e limit [10] = confirm e limit. Proof. reflexivity. Qed.
Lemma confirm_unfold e fuel : confirm e fuel = confirm_with e (match fuel with O => traise OutOfFuel | S fuel' => confirm e fuel' end).
Proof. destruct fuel; reflexivity. Qed.
(** what is done with a line *)
Definition act (e : env) (again : T unit) (inputStr : str) : T unit :=
    if (2 <? zlen inputStr) && (nth 0 inputStr 0 =? 63) then printCommandHelp e (skipn 1 inputStr)
    else if (2 <? zlen inputStr) && (from_end inputStr 1 =? from_end inputStr 2) && (from_end inputStr 2 =? 63) then
      printCommandHelp e (firstn (length inputStr - (if from_end inputStr 3 =? 61 then 3 else 2)) inputStr)
    else
      let inputStrLower := tlower inputStr in
      if startswith inputStrLower (lit "help") then printCommandHelp e (skipn 5 inputStr)
      else if startswith inputStrLower (lit "ls") then
        if str_eqb inputStrLower (lit "lscat") then emit (OScreen [10]) ;> emit OText ;> refresh_line
        else if str_eqb inputStrLower (lit "ls") then listCommands e
        else
          match tsplit inputStrLower with
          | Some category => if existsb (str_eqb (tlower category)) (map tlower (categories e)) then listCommands e else submit e inputStr
          | None => submit e inputStr
          end
      else if startswith inputStrLower (lit "load") then
        match tsplit inputStr with
        | Some name => match files e (tstrip name) with None => emit OText ;> refresh_line | Some lines => emit (OScreen [10]) ;> load again lines end
        | None => submit e inputStr
        end
      else submit e inputStr.
Definition taken (s : str) (t : term) : term :=
  let t := set_line [] 0 t in match s with [] => t | _ => set_hist (addToHistory (hist t) s) (zlen (addToHistory (hist t) s)) t end.
Lemma confirm_act e again w s : typing (tm w) = false -> buf (tm w) <> [] -> trimmed (buf (tm w)) s ->
  confirm_with e again w = act e again s (mk_tworld (taken s (tm w)) (answers w) (outs w)).
Proof.
  intros Ty Ne Tr. apply trimmed_tstrip in Tr as ->. unfold confirm_with. unfold tbind at 1, tget. rewrite Ty. destruct (0 <? zlen (buf (tm w))) eqn:L.
  2:{ apply Z.ltb_ge in L. destruct (buf (tm w)); [contradiction|]. unfold zlen in L. cbn in L. lia. }
  cbv zeta. unfold tbind at 1, tput at 1. unfold taken. destruct (tstrip (buf (tm w))) as [|c s] eqn:Es.
  - cbn [zlen length Z.of_nat Z.ltb]. unfold tbind at 1, tret at 1. reflexivity.
  - replace (0 <? zlen (c :: s)) with true by (symmetry; apply Z.ltb_lt; unfold zlen; cbn; lia). reflexivity.
Qed.
Lemma confirm_empty e again w : typing (tm w) = false -> buf (tm w) = [] -> confirm_with e again w = emit (OScreen [10]) w.
Proof. intros Ty B. unfold confirm_with. unfold tbind at 1, tget. rewrite Ty, B. reflexivity. Qed.

(** the conditions *)
Lemma help1 s : (2 <? zlen s) && (nth 0 s 0 =? 63) = true <-> (length s > 2)%nat /\ exists r, s = 63 :: r.
Proof.
  rewrite andb_true_iff, Z.ltb_lt, Z.eqb_eq. unfold zlen. split; intros [L H]; (split; [lia|]).
  - destruct s as [|c s]; cbn in *; [lia|]. subst. eauto.
  - destruct H as [r ->]. auto.
Qed.
Lemma help2 s : (2 <? zlen s) && (from_end s 1 =? from_end s 2) && (from_end s 2 =? 63) = true <-> (length s > 2)%nat /\ exists r, s = r ++ [63; 63].
Proof.
  rewrite !andb_true_iff, Z.ltb_lt, !Z.eqb_eq. unfold zlen, from_end. split.
  - intros [[L H1] H2]. split; [lia|]. destruct (exists_last (l := s)) as (s1 & x & E); [intros ->; cbn in L; lia|]. subst s.
    rewrite app_length in *. cbn [length] in *. destruct (exists_last (l := s1)) as (s2 & y & E); [intros ->; cbn in L; lia|]. subst s1. rewrite app_length in *. cbn [length] in *.
    rewrite <- app_assoc in *. cbn [app] in *. replace (length s2 + 1 + 1 - 1)%nat with (length s2 + 1)%nat in H1 by lia. replace (length s2 + 1 + 1 - 2)%nat with (length s2 + 0)%nat in * by lia.
    rewrite !app_nth2_plus in *. cbn in *. subst. eauto.
  - intros [L [r ->]]. rewrite app_length in *. cbn [length] in *. replace (length r + 2 - 1)%nat with (length r + 1)%nat by lia. replace (length r + 2 - 2)%nat with (length r + 0)%nat by lia.
    rewrite !app_nth2_plus. cbn. lia.
Qed.
Lemma word_small w : forallb (fun c => negb ((65 <=? c) && (c <=? 90))) w = true -> small w.
Proof. intro H. apply Forall_forall. intros c I. rewrite forallb_forall in H. specialize (H c I). lia. Qed.
Lemma help3 s : startswith (tlower s) (lit "help") = true <-> begins (lit "help") s.
Proof. symmetry. apply begins_lower, word_small. reflexivity. Qed.
Lemma begins_ls s : startswith (tlower s) (lit "ls") = true <-> begins (lit "ls") s.
Proof. symmetry. apply begins_lower, word_small. reflexivity. Qed.
Lemma begins_load s : startswith (tlower s) (lit "load") = true <-> begins (lit "load") s.
Proof. symmetry. apply begins_lower, word_small. reflexivity. Qed.
Lemma begins_sms s : startswith (tlower s) (lit "at+cmgs=") = true <-> begins (lit "at+cmgs=") s.
Proof. symmetry. apply begins_lower, word_small. reflexivity. Qed.
Lemma spells_lscat s : str_eqb (tlower s) (lit "lscat") = true <-> spells (lit "lscat") s.
Proof. rewrite str_eqb_eq. symmetry. apply spells_lower, word_small. reflexivity. Qed.
Lemma spells_ls s : str_eqb (tlower s) (lit "ls") = true <-> spells (lit "ls") s.
Proof. rewrite str_eqb_eq. symmetry. apply spells_lower, word_small. reflexivity. Qed.
Lemma tlower_idem s : tlower (tlower s) = tlower s.
Proof. change (map low (map low s) = map low s). rewrite map_map. apply map_ext. intro c. pose proof (low_small c) as N. unfold low at 1. destruct ((65 <=? low c) && (low c <=? 90)) eqn:E; auto. lia. Qed.
Lemma lists_model e s : lists e s <-> startswith (tlower s) (lit "ls") = true /\ (str_eqb (tlower s) (lit "lscat") = true \/ str_eqb (tlower s) (lit "ls") = true \/
  exists c, tsplit (tlower s) = Some c /\ existsb (str_eqb (tlower c)) (map tlower (categories e)) = true).
Proof.
  unfold lists. rewrite <- spells_lscat, <- spells_ls, <- begins_ls. split.
  - intros [H|[H|(B & a & c & k & Es & N & Ik & Sw)]].
    + split; auto. apply str_eqb_eq in H. rewrite H. reflexivity.
    + split; auto. apply str_eqb_eq in H. rewrite H. reflexivity.
    + split; auto. right. right. exists (tlower c). split.
      * rewrite tsplit_lower. assert (X : tsplit s = Some c) by (apply tsplit_some; eauto). rewrite X. auto.
      * apply existsb_exists. exists (tlower k). split; [apply in_map; auto|]. apply str_eqb_eq. rewrite tlower_idem. apply same_word_lower. auto.
  - intros (B & [H|[H|(c & Sp & Ex)]]); auto. right. right. split; auto. rewrite tsplit_lower in Sp. destruct (tsplit s) as [c'|] eqn:E; [|discriminate Sp]. injection Sp as <-.
    apply tsplit_some in E as (a & -> & N). apply existsb_exists in Ex as (k' & Ik & Ek). apply in_map_iff in Ik as (k & <- & Ik). apply str_eqb_eq in Ek. rewrite tlower_idem in Ek.
    exists a, c', k. split; auto. split; auto. split; auto. apply same_word_lower. auto.
Qed.
Lemma loads_model s name : ~ asks_help s -> (loads s name <-> startswith (tlower s) (lit "load") = true /\ exists n, tsplit s = Some n /\ name = tstrip n).
Proof.
  intro N. unfold loads. rewrite <- begins_load. split.
  - intros (_ & B & a & n & E & Na & Tr). split; auto. exists n. split; [apply tsplit_some; eauto|]. apply trimmed_tstrip. auto.
  - intros (B & n & E & ->). split; auto. split; auto. apply tsplit_some in E as (a & E & Na). exists a, n. split; auto. split; auto. apply tstrip_trimmed.
Qed.
Lemma first_letters s c1 w1 c2 w2 : startswith (tlower s) (c1 :: w1) = true -> startswith (tlower s) (c2 :: w2) = true -> c1 = c2.
Proof. rewrite !startswith_app. intros [r1 ->] [r2 E]. injection E as E _. auto. Qed.

Lemma help_cases s : asks_help s \/ ~ asks_help s.
Proof.
  unfold asks_help. rewrite <- help3. assert (D1 : forall P Q : Prop, P \/ ~ P -> Q \/ ~ Q -> (P \/ Q) \/ ~ (P \/ Q)) by tauto. apply D1.
  - destruct ((2 <? zlen s) && (nth 0 s 0 =? 63)) eqn:H1; [left; apply help1 in H1 as []; auto|]. destruct ((2 <? zlen s) && (from_end s 1 =? from_end s 2) && (from_end s 2 =? 63)) eqn:H2; [left; apply help2 in H2 as []; auto|].
    right. intros [L [X|X]].
    + assert (Y : (2 <? zlen s) && (nth 0 s 0 =? 63) = true) by (apply help1; auto). congruence.
    + assert (Y : (2 <? zlen s) && (from_end s 1 =? from_end s 2) && (from_end s 2 =? 63) = true) by (apply help2; auto). congruence.
  - destruct (startswith _ _); auto.
Qed.
(** ** What is done *)
Definition mute (o : tout) : Prop := on_screen o \/ o = OText.
Definition quiet (s : T unit) : Prop := forall w, tm (snd (s w)) = tm w /\ answers (snd (s w)) = answers w /\ exists os, outs (snd (s w)) = outs w ++ os /\ Forall mute os.
Lemma quiet_bind (s1 s2 : T unit) : quiet s1 -> quiet s2 -> quiet (s1 ;> s2).
Proof.
  intros H1 H2 w. unfold tbind. specialize (H1 w). destruct (s1 w) as [[[]|x] w1]; cbn in *; auto. destruct H1 as (T1 & A1 & os1 & O1 & F1). destruct (H2 w1) as (T2 & A2 & os2 & O2 & F2).
  split; [congruence|]. split; [congruence|]. exists (os1 ++ os2). rewrite O2, O1, app_assoc. split; auto. apply Forall_app. auto.
Qed.
Lemma quiet_raise x : quiet (traise x). Proof. intro w. cbn. split; auto. split; auto. exists []. rewrite app_nil_r. auto. Qed.
Lemma quiet_ret : quiet (tret tt). Proof. intro w. cbn. split; auto. split; auto. exists []. rewrite app_nil_r. auto. Qed.
Lemma quiet_emit o : mute o -> quiet (emit o). Proof. intros M w. cbn. split; auto. split; auto. exists [o]. auto. Qed.
Lemma quiet_text : quiet (emit OText). Proof. apply quiet_emit. right. auto. Qed.
Lemma quiet_screen s : quiet (emit (OScreen s)). Proof. apply quiet_emit. left. apply screen_only. Qed.
Lemma quiet_refresh_line : quiet refresh_line.
Proof. intro w. rewrite refresh_line_run. cbn. split; auto. split; auto. eexists. split; [reflexivity|]. repeat constructor. eexists. auto. Qed.
Ltac quiet_tac := repeat first [apply quiet_bind|apply quiet_raise|apply quiet_ret|apply quiet_text|apply quiet_screen|apply quiet_refresh_line].
Lemma quiet_help e c : quiet (printCommandHelp e c).
Proof. unfold printCommandHelp. destruct (_ =? 0); [quiet_tac|]. destruct (t_get _ _) as [[h|]|[]]; quiet_tac. repeat match goal with |- quiet (if ?b then _ else _) => destruct b end; quiet_tac. Qed.
Lemma quiet_list e : quiet (listCommands e).
Proof. unfold listCommands. quiet_tac. destruct (existsb _ _); quiet_tac. Qed.

Lemma act_help e again s : asks_help s -> exists c, act e again s = printCommandHelp e c.
Proof.
  intros H. unfold act. destruct (_ && _) eqn:H1; [eauto|]. destruct (_ && _ && _) eqn:H2 in |- *; [eauto|]. cbv zeta. destruct (startswith (tlower s) (lit "help")) eqn:H3; [eauto|]. exfalso.
  destruct H as [[L [H|H]]|H].
  - assert (X : (2 <? zlen s) && (nth 0 s 0 =? 63) = true) by (apply help1; auto). congruence.
  - assert (X : (2 <? zlen s) && (from_end s 1 =? from_end s 2) && (from_end s 2 =? 63) = true) by (apply help2; auto). congruence.
  - apply help3 in H. congruence.
Qed.
Lemma act_no_help e again s : ~ asks_help s -> act e again s =
      (if startswith (tlower s) (lit "ls") then
        if str_eqb (tlower s) (lit "lscat") then emit (OScreen [10]) ;> emit OText ;> refresh_line
        else if str_eqb (tlower s) (lit "ls") then listCommands e
        else
          match tsplit (tlower s) with
          | Some category => if existsb (str_eqb (tlower category)) (map tlower (categories e)) then listCommands e else submit e s
          | None => submit e s
          end
      else if startswith (tlower s) (lit "load") then
        match tsplit s with
        | Some name => match files e (tstrip name) with None => emit OText ;> refresh_line | Some lines => emit (OScreen [10]) ;> load again lines end
        | None => submit e s
        end
      else submit e s).
Proof.
  intro N. unfold act. destruct (_ && _) eqn:H1. { exfalso. apply N. apply help1 in H1 as [L H]. left. auto. }
  destruct (_ && _ && _) eqn:H2 in |- *. { exfalso. apply N. apply help2 in H2 as [L H]. left. auto. }
  cbv zeta. destruct (startswith (tlower s) (lit "help")) eqn:H3; auto. exfalso. apply N. right. apply help3. auto.
Qed.
Lemma act_list e again s : ~ asks_help s -> lists e s -> quiet (act e again s).
Proof.
  intros N L. rewrite (act_no_help e again s N). apply lists_model in L as (-> & [->|[H|(c & -> & H)]]).
  - quiet_tac.
  - rewrite H. destruct (str_eqb _ (lit "lscat")); [quiet_tac|apply quiet_list].
  - rewrite H. destruct (str_eqb _ (lit "lscat")); [quiet_tac|]. destruct (str_eqb _ (lit "ls")); apply quiet_list.
Qed.
Lemma act_load e again s name : loads s name -> act e again s =
  match files e name with None => emit OText ;> refresh_line | Some lines => emit (OScreen [10]) ;> load again lines end.
Proof.
  intro L. pose proof L as [N _]. apply loads_model in L as (B & n & E & ->); auto. rewrite (act_no_help e again s N). destruct (startswith (tlower s) (lit "ls")) eqn:Ls.
  - exfalso. apply startswith_app in B as [r1 B], Ls as [r2 Ls]. rewrite B in Ls. discriminate Ls.
  - rewrite B, E. auto.
Qed.
Lemma act_submit e again s : ~ asks_help s -> ~ lists e s -> ~ (exists name, loads s name) -> act e again s = submit e s.
Proof.
  intros N L Ld. rewrite (act_no_help e again s N). destruct (startswith (tlower s) (lit "ls")) eqn:B.
  - destruct (str_eqb _ (lit "lscat")) eqn:E1; [exfalso; apply L, lists_model; auto|]. destruct (str_eqb _ (lit "ls")) eqn:E2; [exfalso; apply L, lists_model; auto|].
    destruct (tsplit (tlower s)) eqn:E3; auto. destruct (existsb _ _) eqn:E4; auto. exfalso. apply L, lists_model. split; auto. right. right. eauto.
  - destruct (startswith (tlower s) (lit "load")) eqn:B2; auto. destruct (tsplit s) as [n|] eqn:E; auto. exfalso. apply Ld. exists (tstrip n). apply loads_model; auto. split; auto. eauto.
Qed.
Lemma sms_submit s e : starts_sms s -> ~ lists e s /\ ~ (exists name, loads s name) /\ startswith (tlower s) (lit "at+cmgs=") = true.
Proof.
  intros [N B]. apply begins_sms in B. split; [|split; auto].
  - intro L. apply lists_model in L as [L _]. apply startswith_app in B as [r1 B], L as [r2 L]. rewrite B in L. discriminate L.
  - intros (name & L). apply loads_model in L as [L _]; auto. apply startswith_app in B as [r1 B], L as [r2 L]. rewrite B in L. discriminate L.
Qed.
Lemma skipn_skipn' {A} x y (l : list A) : skipn x (skipn y l) = skipn (x + y) l.
Proof. revert l. induction y as [|y IH]; intro l; [rewrite Nat.add_0_r; auto|]. rewrite Nat.add_succ_r. destruct l; [rewrite !skipn_nil; auto|]. cbn. auto. Qed.
Lemma hundred_app h x : last_hundred (last_hundred h ++ [x]) = last_hundred (h ++ [x]).
Proof.
  destruct (Nat.le_gt_cases (length h) 100) as [L|L].
  - unfold last_hundred at 2. replace (length h - 100)%nat with 0%nat by lia. auto.
  - assert (E : last_hundred (h ++ [x]) = skipn 1 (skipn (length h - 100) h) ++ [x]).
    { unfold last_hundred. rewrite app_length, skipn_skipn', skipn_app. cbn [length]. replace (length h + 1 - 100 - length h)%nat with 0%nat by lia. cbn [skipn]. f_equal. f_equal. lia. }
    rewrite E. unfold last_hundred at 2. pose proof (skipn_length (length h - 100) h) as X. set (l := skipn (length h - 100) h) in *. unfold last_hundred. rewrite app_length. cbn [length].
    replace (length l + 1 - 100)%nat with 1%nat by lia. destruct l; [cbn in X; lia|]. auto.
Qed.
Lemma hundred_apps h l : last_hundred (last_hundred h ++ l) = last_hundred (h ++ l).
Proof.
  revert h. induction l as [|x l IH]; intro h.
  - rewrite !app_nil_r. unfold last_hundred. rewrite skipn_length, skipn_skipn'. f_equal. lia.
  - change (x :: l) with ([x] ++ l). rewrite !app_assoc, <- IH, hundred_app. apply IH.
Qed.
Lemma hundred_id h : (length h <= 100)%nat -> last_hundred h = h.
Proof. intro L. unfold last_hundred. replace (length h - 100)%nat with 0%nat by lia. auto. Qed.
Lemma hundred_len h : (length (last_hundred h) <= 100)%nat.
Proof. unfold last_hundred. rewrite skipn_length. lia. Qed.
Lemma add_hundred h s : (length h <= 100)%nat -> addToHistory h s = last_hundred (h ++ [s]).
Proof.
  intro L. unfold addToHistory, last_hundred, zlen. rewrite app_length. cbn [length]. destruct (100 <? _) eqn:E.
  - apply Z.ltb_lt in E. replace (length h + 1 - 100)%nat with 1%nat by lia. auto.
  - apply Z.ltb_ge in E. replace (length h + 1 - 100)%nat with 0%nat by lia. auto.
Qed.
Lemma taken_entered s t : s <> [] -> (length (hist t) <= 100)%nat -> entered [s] t (taken s t).
Proof.
  intros Ne L. unfold taken. destruct s as [|c s]; [contradiction|]. unfold entered. cbn [buf cur hist hpos alive prompt set_hist set_line]. rewrite add_hundred by auto.
  split; [split; auto|]. auto.
Qed.
(** a command *)
Definition sends (s : str) : list tout := [OSerial s; OSerial WRITE_TERM; OScreen [10]].
Lemma act_command e again s w : command e s -> act e again s w = (Ok tt, mk_tworld (tm w) (answers w) (outs w ++ sends s)).
Proof.
  intros (Ne & N & L & Ld & Sm). rewrite (act_submit e again s N L Ld). unfold submit. destruct (0 <? zlen s) eqn:E.
  2:{ apply Z.ltb_ge in E. destruct s; [contradiction|]. unfold zlen in E. cbn in E. lia. }
  destruct (startswith (tlower s) (lit "at+cmgs=")) eqn:B. { exfalso. apply Sm. split; auto. apply begins_sms. auto. }
  unfold tbind, emit. cbn. rewrite <- !app_assoc. auto.
Qed.
Lemma trimmed_not_empty l s : trimmed l s -> s <> [] -> l <> [].
Proof. intros (a & b & -> & _) N E. apply app_eq_nil in E as [_ E]. apply app_eq_nil in E as [E _]. contradiction. Qed.
Lemma confirm_command e fuel w s : typing (tm w) = false -> trimmed (buf (tm w)) s -> command e s ->
  confirm e fuel w = (Ok tt, mk_tworld (taken s (tm w)) (answers w) (outs w ++ sends s)).
Proof.
  intros Ty Tr C. rewrite confirm_unfold, (confirm_act e _ w s Ty); auto; [rewrite act_command by auto; reflexivity|]. eapply trimmed_not_empty; eauto. apply C.
Qed.
Theorem enter_command e limit w s : inside (tm w) -> typing (tm w) = false -> trimmed (buf (tm w)) s -> command e s ->
  exists w', press e limit [10] w = (Ok tt, w') /\ entered [s] (tm w) (tm w') /\ typing (tm w') = false /\ sms_prompt (tm w') = sms_prompt (tm w) /\ answers w' = answers w /\
    outs w' = outs w ++ [OSerial s; OSerial [13]; OScreen [10]].
Proof.
  intros I Ty Tr C. rewrite press_enter, (confirm_command e limit w s); auto. eexists. split; [reflexivity|]. cbn [tm answers outs]. destruct C as [Ne _]. split; [apply taken_entered; auto; apply I|].
  unfold taken. destruct s; [contradiction|]. cbn. auto.
Qed.
Theorem enter_blank e limit w : inside (tm w) -> typing (tm w) = false -> trimmed (buf (tm w)) [] ->
  exists w', press e limit [10] w = (Ok tt, w') /\ entered [] (tm w) (tm w') /\ typing (tm w') = false /\ answers w' = answers w /\ to_port (outs w') = to_port (outs w).
Proof.
  intros I Ty Tr. rewrite press_enter, confirm_unfold. pose proof I as ((a & b & B & C) & _ & L). destruct (buf (tm w)) as [|c l] eqn:E.
  - rewrite confirm_empty by auto. eexists. split; [reflexivity|]. cbn [tm answers outs]. unfold entered, at_cursor. rewrite (app_nil_r (hist (tm w))), hundred_id by apply L. rewrite E. symmetry in B. apply app_eq_nil in B as [-> ->].
    cbn in C. unfold to_port. rewrite flat_map_app. repeat split; auto. apply app_nil_r.
  - rewrite (confirm_act e _ w [] Ty) by (rewrite E; congruence || auto). unfold act, submit. cbn. eexists. split; [reflexivity|]. cbn. unfold entered, at_cursor. cbn. rewrite (app_nil_r (hist (tm w))), hundred_id by apply L.
    unfold to_port. rewrite flat_map_app. repeat split; auto. apply app_nil_r.
Qed.
Theorem enter_local e limit w s : inside (tm w) -> typing (tm w) = false -> trimmed (buf (tm w)) s -> asks_help s \/ lists e s ->
  exists r w' os, press e limit [10] w = (r, w') /\ entered [s] (tm w) (tm w') /\ typing (tm w') = false /\ answers w' = answers w /\
    outs w' = outs w ++ os /\ Forall (fun o => on_screen o \/ o = OText) os.
Proof.
  intros I Ty Tr H.
  assert (Ne : s <> []). { intros ->. destruct H as [[[L _]|(a & b & E & Sp)]|H]; [cbn in L; lia| |].
    - symmetry in E. apply app_eq_nil in E as [-> ->]. inversion Sp.
    - apply lists_model in H as [H _]. discriminate H. }
  assert (Q : quiet (act e (match limit with O => traise OutOfFuel | S n => confirm e n end) s)).
  { destruct H as [H|H]; [destruct (act_help e (match limit with O => traise OutOfFuel | S n => confirm e n end) s H) as [c ->]; apply quiet_help|].
    pose proof (help_cases s) as D.
    destruct D as [D|D]; [|apply act_list; auto]. destruct (act_help e (match limit with O => traise OutOfFuel | S n => confirm e n end) s D) as [c ->]; apply quiet_help. }
  rewrite press_enter, confirm_unfold, (confirm_act e _ w s Ty) by (auto || eapply trimmed_not_empty; eauto). set (w0 := mk_tworld _ _ _) in *. specialize (Q w0). destruct (act _ _ _ w0) as [r w'] eqn:E. cbn in Q.
  destruct Q as (Tm & An & os & Os & F). exists r, w', os. split; auto. rewrite Tm. split; [apply taken_entered; auto; apply I|]. split; [unfold taken; destruct s; cbn; auto|]. auto.
Qed.
Theorem enter_sms e limit w s : inside (tm w) -> typing (tm w) = false -> trimmed (buf (tm w)) s -> starts_sms s ->
  exists r w' os, press e limit [10] w = (r, w') /\ entered [s] (tm w) (tm w') /\ answers w' = tl (answers w) /\ outs w' = outs w ++ OScreen [10] :: OCommand (s ++ [13]) :: os /\
    Forall (fun o => on_screen o \/ o = OText) os /\
    match answers w with
    | Some (l :: _) :: _ => r = Ok tt /\ typing (tm w') = true /\ sms_prompt (tm w') = color e COLOR_GREEN l
    | Some [] :: _ => r = Err IndexError /\ typing (tm w') = true /\ sms_prompt (tm w') = sms_prompt (tm w)
    | _ => r = Ok tt /\ typing (tm w') = false /\ sms_prompt (tm w') = sms_prompt (tm w)
    end.
Proof.
  intros I Ty Tr H.
  assert (Ne : s <> []). { intros ->. destruct H as (_ & a & b & E & Sp). symmetry in E. apply app_eq_nil in E as [-> ->]. inversion Sp. }
  rewrite press_enter, confirm_unfold, (confirm_act e _ w s Ty) by (auto || eapply trimmed_not_empty; eauto). destruct (sms_submit s e H) as (L & Ld & B). destruct H as [N _]. rewrite act_submit by auto.
  unfold submit. rewrite B. replace (0 <? zlen s) with true by (destruct s; [contradiction|]; symmetry; apply Z.ltb_lt; unfold zlen; cbn; lia).
  pose proof (taken_entered s (tm w) Ne ltac:(apply I)) as En. unfold entered in *. set (t := taken s (tm w)) in *.
  assert (Sp : sms_prompt t = sms_prompt (tm w)) by (unfold t, taken; destruct s; auto).
  unfold tbind, tput, emit, prompt_for. cbn [tm answers outs]. destruct (answers w) as [|[[|l ls]|] an]; cbn [tm answers outs]; rewrite ?refresh_run; cbn [tm answers outs];
    eexists _, _, _; (split; [reflexivity|]); cbn [tm answers outs]; (split; [exact En|]); (split; [reflexivity|]); rewrite <- ?app_assoc; (split; [cbn [app]; reflexivity|]); (split; [shown|]); cbn; auto.
Qed.
(** a file *)
Lemma trimmed_self l c : trimmed l c -> trimmed c c.
Proof. intros (a & b & _ & _ & _ & H). exists [], []. cbn. rewrite app_nil_r. auto. Qed.
Lemma load_script e fuel ls cs : script ls cs -> Forall (command e) cs -> forall w, at_cursor (tm w) [] [] -> typing (tm w) = false -> (length (hist (tm w)) <= 100)%nat ->
  exists w' os, load (confirm e fuel) ls w = (Ok tt, w') /\ entered cs (tm w) (tm w') /\ typing (tm w') = false /\ sms_prompt (tm w') = sms_prompt (tm w) /\ answers w' = answers w /\
    outs w' = outs w ++ os /\ to_port os = flat_map (fun c => c ++ [13]) cs.
Proof.
  assert (Skip : forall ls cs l c, trimmed l c -> (c = [] \/ exists r, c = 35 :: r) -> forall w, (exists w' os, load (confirm e fuel) ls w = (Ok tt, w') /\ entered cs (tm w) (tm w') /\ typing (tm w') = false /\ sms_prompt (tm w') = sms_prompt (tm w) /\ answers w' = answers w /\
    outs w' = outs w ++ os /\ to_port os = flat_map (fun c => c ++ [13]) cs) -> exists w' os, load (confirm e fuel) (l :: ls) w = (Ok tt, w') /\ entered cs (tm w) (tm w') /\ typing (tm w') = false /\ sms_prompt (tm w') = sms_prompt (tm w) /\ answers w' = answers w /\
    outs w' = outs w ++ os /\ to_port os = flat_map (fun c => c ++ [13]) cs).
  { intros ls' cs' l c Tr Hc w H. apply trimmed_tstrip in Tr as ->. cbn [load]. replace (_ && _) with false; [exact H|]. destruct Hc as [->|[r ->]]; auto. }
  induction 1 as [|l ls cs Tr _ IH|l r ls cs Tr _ IH|l c ls cs Tr Ne Nc _ IH]; intros F w At Ty L.
  - exists w, []. cbn. rewrite app_nil_r. unfold entered. rewrite app_nil_r, hundred_id by auto. repeat split; auto; apply At.
  - apply (Skip ls cs l [] Tr); auto.
  - apply (Skip ls cs l _ Tr); eauto.
  - inversion F as [|? ? Fc Fcs]; subst. pose proof (trimmed_self l c Tr) as Ts. apply trimmed_tstrip in Tr. cbn [load]. rewrite <- Tr.
    replace ((0 <? zlen c) && negb (nth 0 c 0 =? 35)) with true.
    2:{ destruct c as [|x c]; [contradiction|]. symmetry. apply andb_true_iff. split; [apply Z.ltb_lt; unfold zlen; cbn; lia|]. change (nth 0 (x :: c) 0) with x. destruct (x =? 35) eqn:E; auto. apply Z.eqb_eq in E as ->. exfalso. eauto. }
    unfold tbind at 1. unfold tbind at 1, tput. unfold tbind at 1. rewrite refresh_run. cbn [tm answers outs].
    set (w1 := mk_tworld (set_line c (cur (tm w)) (tm w)) _ _). rewrite (confirm_command e fuel w1 c); [|exact Ty|exact Ts|auto]. set (w2 := mk_tworld (taken c (tm w1)) _ _).
    assert (En : entered [c] (tm w) (tm w2)). { unfold w2, w1. cbn [tm]. change (taken c (set_line c (cur (tm w)) (tm w))) with (taken c (tm w)). apply taken_entered; auto. }
    destruct (IH Fcs w2) as (w' & os & R & En' & Ty' & Sp & An & Os & Po).
    + apply En.
    + unfold w2, taken. cbn [tm]. destruct c; auto.
    + destruct En as (_ & -> & _). apply hundred_len.
    + exists w', (OScreen (refresh_text (set_line c (cur (tm w)) (tm w)) (zlen c)) :: sends c ++ os). split; auto. split; [|split; auto; split; [|split; auto; split]].
      * destruct En as (_ & H1 & P1 & A1 & Pr1), En' as (At2 & H2 & P2 & A2 & Pr2). unfold entered. split; auto. rewrite H2, H1, hundred_apps, <- app_assoc. split; auto. split; [|split; congruence].
        rewrite P2. destruct cs; [|rewrite H2, H1, hundred_apps, <- app_assoc; auto]. rewrite P1, H1, app_nil_r. auto.
      * rewrite Sp. unfold w2, taken. cbn [tm]. destruct c; auto.
      * rewrite Os. unfold w2, w1. cbn [outs]. rewrite <- !app_assoc. reflexivity.
      * unfold to_port in *. cbn [flat_map sends app WRITE_TERM]. rewrite Po, <- app_assoc. auto.
Qed.

Theorem enter_load e limit w s name lines cs : inside (tm w) -> typing (tm w) = false -> trimmed (buf (tm w)) s -> loads s name ->
  files e name = Some lines -> script lines cs -> Forall (command e) cs ->
  exists w' os, press e (S limit) [10] w = (Ok tt, w') /\ entered (s :: cs) (tm w) (tm w') /\ typing (tm w') = false /\ answers w' = answers w /\
    outs w' = outs w ++ os /\ to_port os = flat_map (fun c => c ++ [13]) cs.
Proof.
  intros I Ty Tr Ld Fi Sc F.
  assert (Ne : s <> []). { intros ->. destruct Ld as (_ & (a & b & E & Sp) & _). symmetry in E. apply app_eq_nil in E as [-> ->]. inversion Sp. }
  rewrite press_enter, confirm_unfold, (confirm_act e _ w s Ty) by (auto || eapply trimmed_not_empty; eauto). rewrite (act_load e _ s name Ld), Fi.
  pose proof (taken_entered s (tm w) Ne ltac:(apply I)) as En. set (t := taken s (tm w)) in *. unfold tbind at 1, emit. cbn [tm answers outs]. set (w1 := mk_tworld t _ _).
  destruct (load_script e limit lines cs Sc F w1) as (w' & os & R & En' & Ty' & Sp & An & Os & Po).
  - apply En.
  - unfold w1, t, taken. cbn. destruct s; auto.
  - unfold w1. cbn. destruct En as (_ & -> & _). apply hundred_len.
  - exists w', (OScreen [10] :: os). split; auto. split; [|split; auto; split; auto; split].
    + destruct En as (_ & H1 & P1 & A1 & Pr1), En' as (At2 & H2 & P2 & A2 & Pr2). unfold w1 in *. cbn [tm] in *. unfold entered. split; auto. rewrite P2, H2, H1, hundred_apps, <- app_assoc. split; auto. split; [|split; congruence].
      destruct cs; auto. rewrite P1, H1. auto.
    + rewrite Os. unfold w1. cbn. rewrite <- app_assoc. auto.
    + cbn. auto.
Qed.
Theorem enter_no_file e limit w s name : inside (tm w) -> typing (tm w) = false -> trimmed (buf (tm w)) s -> loads s name -> files e name = None ->
  exists w' os, press e limit [10] w = (Ok tt, w') /\ entered [s] (tm w) (tm w') /\ typing (tm w') = false /\ answers w' = answers w /\
    outs w' = outs w ++ os /\ Forall (fun o => on_screen o \/ o = OText) os.
Proof.
  intros I Ty Tr Ld Fi.
  assert (Ne : s <> []). { intros ->. destruct Ld as (_ & (a & b & E & Sp) & _). symmetry in E. apply app_eq_nil in E as [-> ->]. inversion Sp. }
  rewrite press_enter, confirm_unfold, (confirm_act e _ w s Ty) by (auto || eapply trimmed_not_empty; eauto). rewrite (act_load e _ s name Ld), Fi.
  pose proof (taken_entered s (tm w) Ne ltac:(apply I)) as En. unfold tbind, emit. rewrite refresh_line_run. cbn [tm answers outs]. eexists _, _. split; [reflexivity|]. cbn [tm answers outs]. split; auto.
  split; [unfold taken; destruct s; auto|]. split; auto. rewrite <- app_assoc. split; [reflexivity|]. shown.
Qed.

(** ** Typing a message *)
Lemma sms_enter e limit w a b : typing (tm w) = true -> at_cursor (tm w) a b ->
  exists w', press e limit [10] w = (Ok tt, w') /\ at_cursor (tm w') [] b /\ same_but_line (tm w) (tm w') /\ answers w' = answers w /\ exists os, outs w' = outs w ++ os /\ to_port os = a.
Proof.
  intros Ty [B C]. rewrite press_enter, confirm_unfold. unfold confirm_with. unfold tbind at 1, tget. rewrite Ty, B, C, Nat2Z.id. destruct (cut_at a b) as [-> ->]. unfold tbind, emit, tput. rewrite refresh_run. cbn [tm answers outs].
  eexists. split; [reflexivity|]. cbn. split; [split; auto|]. split; [repeat split; auto|]. split; auto. rewrite <- !app_assoc. eexists. split; [reflexivity|]. cbn. apply app_nil_r.
Qed.
Lemma port_screen os : Forall on_screen os -> to_port os = [].
Proof. induction 1 as [|o os [s ->] _ IH]; auto. Qed.
Theorem sms_keys e limit keys s p r : typed keys (s, p) r -> forall w, at_cursor (tm w) (fst p) (snd p) -> typing (tm w) = true -> alive (tm w) = true ->
  exists w' os, input_loop e limit keys w = (Ok tt, w') /\ at_cursor (tm w') (fst (snd r)) (snd (snd r)) /\ same_but_line (tm w) (tm w') /\ answers w' = answers w /\
    outs w' = outs w ++ os /\ fst r = s ++ to_port os.
Proof.
  remember (s, p) as q eqn:Eq. intro H. revert s p Eq. induction H as [q|k ks s p q r Ed H IH|ks s a b r H IH]; intros s0 p0 Eq w At Ty Al.
  - subst q. exists w, []. cbn. rewrite !app_nil_r. repeat split; auto; apply At.
  - injection Eq as <- <-. destruct p as [a b]. cbn in At. assert (K : editing_key k) by (inversion Ed; subst; try (right; cbn; tauto); left; eauto).
    destruct (loop_edits e limit [k] ltac:(auto) w a b At Al) as (a' & b' & w1 & R & Eds & At1 & Sm & os1 & O1 & F1). cbn [input_loop] in R |- *. unfold tbind at 1, tget in R. unfold tbind at 1, tget. rewrite Al in *.
    unfold tbind in R |- *. destruct (press e limit k w) as [[[]|x] w1'] eqn:P; [|discriminate R]. injection R as ->.
    inversion Eds as [|? ? ? ? ? E1 E2]; subst. inversion E2; subst. assert (q = (a', b')) as -> by (eapply edits_fun; eauto).
    destruct (IH s (a', b') eq_refl w1) as (w2 & os2 & R2 & At2 & Sm2 & An2 & O2 & P2); auto; [destruct Sm as (_ & _ & -> & _); auto|destruct Sm as (_ & _ & _ & -> & _); auto|].
    exists w2, (os1 ++ os2). split; auto. split; auto. split; [unfold same_but_line in *; intuition congruence|]. split; [|split].
    + rewrite An2. destruct (key_run e limit k w a b K At) as (? & ? & w3 & R3 & _ & _ & _ & An & _). rewrite P in R3. injection R3 as <-. auto.
    + rewrite O2, O1, app_assoc. auto.
    + rewrite P2. unfold to_port. rewrite flat_map_app. fold (to_port os1) (to_port os2). rewrite (port_screen os1 F1). auto.
  - injection Eq as <- <-. destruct (sms_enter e limit w a b Ty At) as (w1 & R & At1 & Sm & An & os1 & O1 & P1). cbn [input_loop]. unfold tbind at 1, tget. rewrite Al. unfold tbind. rewrite R.
    destruct (IH (s ++ a) ([], b) eq_refl w1) as (w2 & os2 & R2 & At2 & Sm2 & An2 & O2 & P2); auto; [destruct Sm as (_ & _ & -> & _); auto|destruct Sm as (_ & _ & _ & -> & _); auto|].
    exists w2, (os1 ++ os2). split; auto. split; auto. split; [unfold same_but_line in *; intuition congruence|]. split; [congruence|]. split; [rewrite O2, O1, app_assoc; auto|].
    rewrite P2. unfold to_port. rewrite flat_map_app. fold (to_port os1) (to_port os2). rewrite P1, app_assoc. auto.
Qed.
Theorem sms_ctrl_z e limit w : typing (tm w) = true ->
  exists w' os, press e limit CTRL_Z_CHARACTER w = (Ok tt, w') /\ ended (tm w) (tm w') /\ answers w' = answers w /\ outs w' = outs w ++ os /\ to_port os = buf (tm w) ++ [26].
Proof.
  intro Ty. change (press e limit CTRL_Z_CHARACTER) with handleCtrlZ. unfold handleCtrlZ. unfold tbind at 1, tget. rewrite Ty. unfold tbind, emit, tput. rewrite refresh_run. cbn [tm answers outs].
  eexists _, _. split; [reflexivity|]. cbn [tm answers outs]. split; [repeat split|]. split; auto. rewrite <- !app_assoc. split; [reflexivity|]. cbn. auto.
Qed.
Theorem sms_esc e limit w : typing (tm w) = true ->
  exists w' os, press e limit ESC_CHARACTER w = (Ok tt, w') /\ ended (tm w) (tm w') /\ answers w' = answers w /\ outs w' = outs w ++ os /\ to_port os = [27].
Proof.
  intro Ty. change (press e limit ESC_CHARACTER) with handleEsc. unfold handleEsc. unfold tbind at 1, tget. rewrite Ty. unfold tbind, emit, tput. cbn [tm answers outs].
  eexists _, _. split; [reflexivity|]. cbn [tm answers outs]. split; [repeat split|]. split; auto.
Qed.
Theorem not_typing e limit w k : typing (tm w) = false -> k = CTRL_Z_CHARACTER \/ k = ESC_CHARACTER -> press e limit k w = (Ok tt, w).
Proof. intros Ty [->| ->]; [change (press e limit CTRL_Z_CHARACTER) with handleCtrlZ; unfold handleCtrlZ|change (press e limit ESC_CHARACTER) with handleEsc; unfold handleEsc]; unfold tbind, tget; rewrite Ty; auto. Qed.
(** ** All lines *)
Definition command_bool (e : env) (s : str) : bool :=
  negb (str_eqb s []) && negb ((2 <? zlen s) && (nth 0 s 0 =? 63)) && negb ((2 <? zlen s) && (from_end s 1 =? from_end s 2) && (from_end s 2 =? 63)) && negb (startswith (tlower s) (lit "help")) &&
  negb (startswith (tlower s) (lit "ls") && (str_eqb (tlower s) (lit "lscat") || str_eqb (tlower s) (lit "ls") || match tsplit (tlower s) with Some c => existsb (str_eqb (tlower c)) (map tlower (categories e)) | None => false end)) &&
  negb (startswith (tlower s) (lit "load") && match tsplit s with Some _ => true | None => false end) && negb (startswith (tlower s) (lit "at+cmgs=")).
Lemma asks_b s : asks_help s <-> (2 <? zlen s) && (nth 0 s 0 =? 63) = true \/ (2 <? zlen s) && (from_end s 1 =? from_end s 2) && (from_end s 2 =? 63) = true \/ startswith (tlower s) (lit "help") = true.
Proof. rewrite help1, help2, help3. unfold asks_help. tauto. Qed.
Lemma lists_b e s : lists e s <-> startswith (tlower s) (lit "ls") && (str_eqb (tlower s) (lit "lscat") || str_eqb (tlower s) (lit "ls") || match tsplit (tlower s) with Some c => existsb (str_eqb (tlower c)) (map tlower (categories e)) | None => false end) = true.
Proof.
  rewrite lists_model, andb_true_iff, !orb_true_iff. split; intros [H1 H2]; (split; [exact H1|]).
  - destruct H2 as [H|[H|(c & -> & H)]]; auto.
  - destruct H2 as [[H|H]|H]; auto. destruct (tsplit (tlower s)) as [c|]; [|discriminate H]. right. right. eauto.
Qed.
Lemma loads_b s : ~ asks_help s -> (exists name, loads s name) <-> startswith (tlower s) (lit "load") && match tsplit s with Some _ => true | None => false end = true.
Proof.
  intro N. rewrite andb_true_iff. split.
  - intros [name H]. apply loads_model in H as (H & n & E & _); auto. rewrite E. auto.
  - intros [H1 H2]. destruct (tsplit s) as [n|] eqn:E; [|discriminate H2]. exists (tstrip n). apply loads_model; auto. split; auto. eauto.
Qed.
Lemma command_b e s : command_bool e s = true <-> command e s.
Proof.
  unfold command_bool, command. rewrite !andb_true_iff, !negb_true_iff. destruct (help_cases s) as [A|A].
  - split; [|tauto]. intros ((((((_ & H1) & H2) & H3) & _) & _) & _). apply asks_b in A. exfalso. destruct A as [A|[A|A]]; congruence.
  - pose proof (loads_b s A) as Lb. pose proof (lists_b e s) as Li. pose proof (asks_b s) as As. unfold starts_sms. rewrite <- begins_sms. rewrite Li, Lb.
    assert (Nb : forall b : bool, b = false <-> b <> true) by (intros []; split; congruence). rewrite !Nb, str_eqb_eq. tauto.
Qed.
Lemma line_cases e s : s = [] \/ asks_help s \/ lists e s \/ (exists name, loads s name) \/ starts_sms s \/ command e s.
Proof.
  destruct s as [|c s]; auto. right. set (l := c :: s). destruct (help_cases l) as [A|A]; auto. pose proof (loads_b l A) as Lb. pose proof (lists_b e l) as Li. 
  assert (Sm : starts_sms l <-> startswith (tlower l) (lit "at+cmgs=") = true) by (unfold starts_sms; rewrite <- begins_sms; tauto).
  assert (D1 : lists e l \/ ~ lists e l) by (rewrite Li; match goal with |- ?b = true \/ _ => destruct b end; [left; reflexivity|right; discriminate]). assert (D2 : (exists name, loads l name) \/ ~ (exists name, loads l name)) by (rewrite Lb; match goal with |- ?b = true \/ _ => destruct b end; [left; reflexivity|right; discriminate]).
  assert (D3 : starts_sms l \/ ~ starts_sms l) by (rewrite Sm; match goal with |- ?b = true \/ _ => destruct b end; [left; reflexivity|right; discriminate]). unfold command. assert (l <> []) by discriminate. tauto.
Qed.
