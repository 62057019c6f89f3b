(** Executions of threads that collect stored messages, next to others. *)
From Coq Require Import Permutation.
From Verif Require Import Base PduModel RegexModel ModemCore ModemSpec WriteProofs MonadProofs SendSpec SendProofs TrackSpec CoverageSpec CoverageProofs
  SmsModel StoreSpec StoreLemmas ReadProofs StoreProofs ListSpec ListProofs ProcessProofs StoreFinal HandlerModel HandlerSpec HandlerProofs CollectModel CollectSpec TrieProofs LangProofs
  CollectProofs CollectInv.

Lemma dec_value_nonneg ds : digits ds -> 0 <= dec_value ds.
Proof.
  intros [_ F]. unfold dec_value. assert (V : forall ds acc, Forall (fun c => is_digit c = true) ds -> 0 <= acc -> 0 <= fold_left (fun a c => 10 * a + (c - 48)) ds acc).
  { clear. induction ds as [|c ds IH]; intros acc F H; cbn; auto. inversion F as [|? ? H1 H2]; subst. apply IH; auto. apply digit_range in H1. lia. }
  apply V; auto. lia.
Qed.
Lemma param_command mode st p : status_param mode st p -> exists p', status_param mode st p' /\ list_command mode st = Some (lit "AT+CMGL=" ++ p').
Proof.
  intro Sp. assert (E : exists command, list_command mode st = Some command).
  { revert Sp. unfold status_param, list_command. destruct mode; [|eauto]. intros (n & S & _). apply status_text_iff in S. rewrite S. cbn [option_map]. eauto. }
  destruct E as (command & E). assert (Hs : 0 <= st).
  { revert Sp. unfold status_param. destruct mode.
    - intros (n & S & _). cbn in S. repeat (destruct S as [[= _ <-]|S]; [lia|]). destruct S.
    - intros (Ds & <- & _). apply dec_value_nonneg; auto. }
  destruct (command_param mode st command Hs E) as (p' & Sp' & ->). eauto.
Qed.

Section Steps.
Context (mode : bool) (P : site -> list seen -> site -> Prop) (s0 : site).
Notation run := (evolves mode P s0).
Definition OKs : list str := [lit "OK"].
Lemma ok_good : good_answer OKs.
Proof. exists [], (lit "OK"). split; auto. apply good_ok. Qed.

Lemma go_quiet obs before t after attr d said attr' t' a :
  run obs (mk_site attr d (before ++ t :: after)) -> thread_step mode attr t None said attr' t' -> a = map Told said ->
  P (mk_site attr d (before ++ t :: after)) a (mk_site attr' d (before ++ t' :: after)) -> run (obs ++ a) (mk_site attr' d (before ++ t' :: after)).
Proof. intros H T -> Pr. eapply ev_step; eauto. constructor. auto. Qed.
Lemma go_write obs before t after attr d text r gone d' attr' t' a :
  run obs (mk_site attr d (before ++ t :: after)) -> thread_step mode attr t (Some (text, r)) [] attr' t' -> serves mode d text r gone d' ->
  a = map (fun e => Gone (sel d) (fst e) (snd e)) gone ++ (if failed t' then map Dropped (holds t) else []) ->
  P (mk_site attr d (before ++ t :: after)) a (mk_site attr' d' (before ++ t' :: after)) -> run (obs ++ a) (mk_site attr' d' (before ++ t' :: after)).
Proof. intros H T S -> Pr. eapply ev_step; eauto. apply (ss_write mode before t after attr d text r gone d' []); auto. Qed.

(** ** Handlers *)
Definition at_place (mem ds : str) (p : place) : thread := Notified (mk_handler mem ds p).
Lemma h_compare mem ds attr : thread_step mode attr (at_place mem ds Compare) None [] attr (at_place mem ds (if opt_str_eqb (Some mem) attr then Fetch else Select)).
Proof. exact (ts_handler mode attr (mk_handler mem ds Compare) None None attr _ (st_compare mode mem ds attr)). Qed.
Lemma h_select mem ds attr : thread_step mode attr (at_place mem ds Select) (Some ((lit "AT+CPMS=""" ++ mem ++ lit """") ++ CR, Lines OKs)) [] attr (at_place mem ds Remember).
Proof.
  assert (T := ts_handler mode attr (mk_handler mem ds Select) _ None attr _ (st_select mode mem ds attr (Lines OKs))). cbv zeta in T.
  rewrite attempt_good in T by apply ok_good. exact T.
Qed.
Lemma h_fetch mem ds attr content s : reads_as mode content s ->
  thread_step mode attr (at_place mem ds Fetch) (Some ((lit "AT+CMGR=" ++ ds) ++ CR, Lines (content ++ OKs))) [] attr (at_place mem ds (Erase s)).
Proof.
  intro R. assert (G : good_answer (content ++ OKs)) by (exists content, (lit "OK"); split; auto; apply good_ok).
  assert (T := ts_handler mode attr (mk_handler mem ds Fetch) _ None attr _ (st_fetch mode mem ds attr (Lines (content ++ OKs)))). cbv zeta in T.
  rewrite attempt_good in T by auto. cbn [next] in T. apply (reads_ok _ _ _ (lit "OK")) in R. unfold OKs in T. rewrite R in T. exact T.
Qed.
Lemma h_missing mem ds attr : thread_step mode attr (at_place mem ds Fetch) (Some ((lit "AT+CMGR=" ++ ds) ++ CR, no_message)) [] attr
  (at_place mem ds (Failed (CmsError (lit "AT+CMGR=" ++ ds) 321))).
Proof.
  assert (T := ts_handler mode attr (mk_handler mem ds Fetch) _ None attr _ (st_fetch mode mem ds attr no_message)). cbv zeta in T.
  rewrite no_message_attempt in T. exact T.
Qed.
Lemma h_erase mem ds attr s : thread_step mode attr (at_place mem ds (Erase s)) (Some ((lit "AT+CMGD=" ++ ds ++ lit ",0") ++ CR, Lines OKs)) [] attr (at_place mem ds (Deliver s)).
Proof.
  assert (T := ts_handler mode attr (mk_handler mem ds (Erase s)) _ None attr _ (st_erase mode mem ds attr s (Lines OKs))). cbv zeta in T.
  rewrite attempt_good in T by apply ok_good. exact T.
Qed.
Lemma h_deliver mem ds attr s : thread_step mode attr (at_place mem ds (Deliver s)) None [s] attr (at_place mem ds (Delivered s)).
Proof. exact (ts_handler mode attr (mk_handler mem ds (Deliver s)) None (Some s) attr _ (st_deliver mode mem ds attr s)). Qed.

(** ** Collectors, working on the memory that is selected *)
Definition at_spot (handing : bool) (sts : list Z) (p : spot) : thread := Collecting (mk_collector None handing sts p).
Ltac collector T := match type of T with collector_step _ _ _ ?attr ?sts ?p ?lab ?said ?attr' ?sts' ?p' =>
  match goal with |- thread_step _ _ (at_spot ?hd _ _) _ _ _ _ => exact (ts_collector mode attr (mk_collector None hd sts p) lab said attr' sts' p' T) end end.
Lemma c_compare hd sts attr : thread_step mode attr (at_spot hd sts CCompare) None [] attr (at_spot hd sts CList).
Proof. assert (T := cs_compare mode None hd attr sts). collector T. Qed.
Lemma c_list hd st sts p attr answer es : list_command mode st = Some (lit "AT+CMGL=" ++ p) -> good_answer answer -> describes mode answer es -> NoDup (map fst es) ->
  thread_step mode attr (at_spot hd (st :: sts) CList) (Some (lit "AT+CMGL=" ++ p ++ [13], Lines answer)) [] attr
    (at_spot hd (st :: sts) (if st =? 4 then CWipe (map snd es) else CErase (map snd es) (map fst es) (map fst es))).
Proof.
  intros E G D N.
  assert (T := cs_list mode None hd attr st sts (Lines answer) _ (fun l => l) E (fun l => Permutation_refl l)).
  rewrite attempt_good in T by auto. cbn [next_spot] in T. rewrite (describes_lines _ _ _ D N) in T. cbn [fst snd] in T.
  replace (lit "AT+CMGL=" ++ p ++ [13]) with ((lit "AT+CMGL=" ++ p) ++ CR) by (rewrite <- app_assoc; auto). collector T.
Qed.
Lemma c_erase hd sts ms ls i rest attr : thread_step mode attr (at_spot hd sts (CErase ms ls (i :: rest)))
  (Some ((lit "AT+CMGD=" ++ str_of_Z i ++ lit ",0") ++ CR, Lines OKs)) [] attr (at_spot hd sts (CErase ms ls rest)).
Proof.
  assert (T := cs_erase mode None hd attr sts ms ls i rest (Lines OKs)). cbv zeta in T. rewrite attempt_good in T by apply ok_good. collector T.
Qed.
Lemma c_erased hd sts ms ls attr : thread_step mode attr (at_spot hd sts (CErase ms ls [])) None [] attr (at_spot hd sts (CHand ms)).
Proof. assert (T := cs_erased mode None hd attr sts ms ls). collector T. Qed.
Lemma c_wipe hd sts ms attr : thread_step mode attr (at_spot hd sts (CWipe ms)) (Some (lit "AT+CMGD=1,4" ++ CR, Lines OKs)) [] attr (at_spot hd sts (CHand ms)).
Proof. assert (T := cs_wipe mode None hd attr sts ms (Lines OKs)). cbv zeta in T. rewrite attempt_good in T by apply ok_good. collector T. Qed.
Lemma c_return sts ms attr : thread_step mode attr (at_spot false sts (CHand ms)) None ms attr (at_spot false sts CDone).
Proof. assert (T := cs_return mode None false attr sts ms eq_refl). collector T. Qed.
Lemma c_hand sts s ms attr : thread_step mode attr (at_spot true sts (CHand (s :: ms))) None [s] attr (at_spot true sts (CHand ms)).
Proof. assert (T := cs_hand mode None true attr sts s ms eq_refl). collector T. Qed.
Lemma c_last st attr : thread_step mode attr (at_spot true [st] (CHand [])) None [] attr (at_spot true [] CDone).
Proof. assert (T := cs_next mode None true attr st [] eq_refl). collector T. Qed.
End Steps.

(** ** Executions *)
Lemma nil_app {A} (l : list A) : l = l ++ [].
Proof. rewrite app_nil_r. auto. Qed.
Lemma put_same c mem i x : put c mem i x mem i = x.
Proof. unfold put. rewrite same_cell_refl. auto. Qed.
Lemma put_else c mem i x m k : (m, k) <> (mem, i) -> put c mem i x m k = c m k.
Proof. unfold put, same_cell. destruct (str_eqb_spec m mem), (Z.eqb_spec k i); cbn; auto. congruence. Qed.

(** how each reply is served *)
Lemma sv_select' mode d mem : ~ In 34 mem -> serves mode d ((lit "AT+CPMS=""" ++ mem ++ lit """") ++ CR) (Lines OKs) [] (mk_device mem (stored d)).
Proof.
  intro Q. replace ((lit "AT+CPMS=""" ++ mem ++ lit """") ++ CR) with (lit "AT+CPMS=" ++ 34 :: mem ++ [34; 13]) by (cbn; rewrite <- app_assoc; auto).
  apply sv_select; auto. apply ok_good.
Qed.
Lemma sv_read' mode d ds content : digits ds -> stored d (sel d) (dec_value ds) = Some content ->
  serves mode d ((lit "AT+CMGR=" ++ ds) ++ CR) (Lines (content ++ OKs)) [] (mk_device (sel d) (stored d)).
Proof. intros D C. rewrite <- app_assoc. apply sv_read; auto. apply touched_refl. Qed.
Lemma sv_delete' mode d ds : digits ds -> serves mode d ((lit "AT+CMGD=" ++ ds ++ lit ",0") ++ CR) (Lines OKs)
  (match stored d (sel d) (dec_value ds) with Some content => [(dec_value ds, content)] | None => [] end) (mk_device (sel d) (put (stored d) (sel d) (dec_value ds) None)).
Proof. intros D. rewrite <- !app_assoc. apply sv_delete; auto. apply ok_good. Qed.

Ltac calm Pr := apply Pr; right; intros ? ? ? F; cbn in F; repeat (destruct F as [F|F]); try discriminate F; destruct F.

Section Executions.
Context (mode : bool) (mem ds : str) (c1 : list str) (s1 : stored_sms) (st : Z) (p : str) (answer : list str) (d : device).
Context (N : mem <> []) (Q : ~ In 34 mem) (D : digits ds) (R : reads_as mode c1 s1) (Sp : status_param mode st p)
  (G : good_answer answer) (De : describes mode answer [(dec_value ds, s1)]) (Sl : sel d = mem) (Em : forall i, stored d mem i = None).
Let i := dec_value ds.
Definition full (c : cells) : cells := put c mem i (Some c1).
Lemma alone_listed (c : cells) : (forall k, c mem k = None) -> st = 4 \/ stat_of s1 = st ->
  forall k s, In (k, s) [(i, s1)] <-> exists content, full c mem k = Some content /\ reads_as mode content s /\ (st = 4 \/ stat_of s = st).
Proof.
  intros E St k s. cbn [In]. split.
  - intros [[= <- <-]|[]]. exists c1. unfold full. rewrite put_same. auto.
  - intros (content & C & Rd & _). left. unfold full in C. destruct (Z.eq_dec k i) as [->|Ne].
    + rewrite put_same in C. injection C as <-. f_equal. eapply reads_same; eauto.
    + rewrite put_else, E in C; [discriminate|congruence].
Qed.

Definition round_of : collector := mk_collector None true [st] CCompare.
(** both the collector and the handler have read the message; the handler has deleted it and given it *)
Lemma both (P : site -> list seen -> site -> Prop) : stat_of s1 = st -> st <> 4 -> (forall s a s', threads s = [] \/ (forall m k c, ~ In (Came m k c) a) -> P s a s') ->
  evolves mode P (mk_site (Some mem) d []) [Came mem i c1; Began round_of; Gone mem i c1; Told s1]
    (mk_site (Some mem) (mk_device mem (put (full (stored d)) mem i None)) [at_place mem ds (Delivered s1); at_spot true [st] (CErase [s1] [i] [i])]).
Proof.
  intros St N4 Pr. destruct (param_command mode st p Sp) as (p' & Sp' & Cm).
  assert (S4 : (st =? 4) = false) by (apply Z.eqb_neq; auto).
  assert (R0 := ev_nil mode P (mk_site (Some mem) d [])).
  assert (R1 := ev_step _ _ _ _ _ _ _ R0 (ss_arrive mode (Some mem) d [] mem ds c1 true N Q D (Em _))). specialize (R1 ltac:(apply Pr; left; reflexivity)).
  cbn [app] in R1. fold i in R1. rewrite Sl in R1. fold (full (stored d)) in R1.
  assert (R2 := ev_step _ _ _ _ _ _ _ R1 (ss_begin mode (Some mem) _ _ round_of eq_refl ltac:(discriminate))).
  specialize (R2 ltac:(calm Pr)). cbn [app] in R2. clear R0 R1.
  set (dA := mk_device mem (full (stored d))) in *.
  assert (R3 := go_quiet _ _ _ _ [] (at_place mem ds Compare) [Collecting round_of] _ _ _ _ _ _ R2 (h_compare mode mem ds (Some mem)) eq_refl
    ltac:(calm Pr)). cbn [map app] in R3.
  replace (opt_str_eqb (Some mem) (Some mem)) with true in R3 by (cbn; destruct (str_eqb_spec mem mem); congruence).
  assert (R4 := go_write _ _ _ _ [] (at_place mem ds Fetch) [Collecting round_of] _ _ _ _ [] _ _ _ _ R3 (h_fetch mode mem ds (Some mem) c1 s1 R)
    (sv_read' mode dA ds c1 D ltac:(apply put_same)) eq_refl ltac:(calm Pr)). cbn [map app failed at_place h_place sel stored dA] in R4. fold dA in R4.
  assert (R5 := go_quiet _ _ _ _ [at_place mem ds (Erase s1)] (at_spot true [st] CCompare) [] _ _ _ _ _ _ R4 (c_compare mode true [st] (Some mem)) eq_refl
    ltac:(calm Pr)). cbn [map app] in R5.
  assert (Nd : NoDup (map fst [(dec_value ds, s1)])) by (cbn; constructor; [intros []|constructor]).
  assert (T := c_list mode true st [] p' (Some mem) answer _ Cm G De Nd). rewrite S4 in T. cbn [map fst snd] in T. fold i in T.
  assert (Sv : serves mode dA (lit "AT+CMGL=" ++ p' ++ [13]) (Lines answer) [] (mk_device mem (full (stored d)))).
  { apply (sv_list mode dA st p' answer [(i, s1)] (full (stored d))); auto; [|apply touched_refl]. apply alone_listed; auto. }
  assert (R6 := go_write _ _ _ _ [at_place mem ds (Erase s1)] (at_spot true [st] CList) [] _ _ _ _ [] _ _ _ _ R5 T Sv eq_refl ltac:(calm Pr)).
  cbn [map app failed at_spot c_spot] in R6.
  assert (Sd := sv_delete' mode dA ds D). fold i in Sd. cbn [sel stored dA] in Sd. unfold full at 1 in Sd. rewrite put_same in Sd.
  assert (R7 := go_write _ _ _ _ [] (at_place mem ds (Erase s1)) [at_spot true [st] (CErase [s1] [i] [i])] _ _ _ _ _ _ _ _ _ R6 (h_erase mode mem ds (Some mem) s1) Sd eq_refl).
  cbn [map app failed at_place h_place sel stored dA fst snd] in R7. specialize (R7 ltac:(calm Pr)).
  assert (R8 := go_quiet _ _ _ _ [] (at_place mem ds (Deliver s1)) [at_spot true [st] (CErase [s1] [i] [i])] _ _ _ _ _ _ R7 (h_deliver mode mem ds (Some mem) s1) eq_refl).
  cbn [map app] in R8. apply R8. calm Pr.
Qed.
(** the collector goes on with one index left *)
Lemma rest_of_round (P : site -> list seen -> site -> Prop) s0 obs before after d1 : sel d1 = mem -> 
  (forall s a s', threads s = [] \/ (forall m k c, ~ In (Came m k c) a) -> P s a s') ->
  evolves mode P s0 obs (mk_site (Some mem) d1 (before ++ at_spot true [st] (CErase [s1] [i] [i]) :: after)) ->
  evolves mode P s0 (obs ++ match stored d1 mem i with Some content => [Gone mem i content; Told s1] | None => [Told s1] end)
    (mk_site (Some mem) (mk_device mem (put (stored d1) mem i None)) (before ++ at_spot true [] CDone :: after)).
Proof.
  intros S1 Pr R0. assert (I0 : 0 <= i) by (apply dec_value_nonneg; auto). destruct (erase_text i I0) as [Di Ei].
  assert (Sd := sv_delete' mode d1 (str_of_Z i) Di). rewrite Ei, S1 in Sd.
  assert (R1 := go_write _ _ _ _ _ _ _ _ _ _ _ _ _ _ _ _ R0 (c_erase mode true [st] [s1] [i] i [] (Some mem)) Sd eq_refl).
  cbn [failed at_spot c_spot] in R1. assert (R1' : evolves mode P s0 (obs ++ map (fun e => Gone (sel d1) (fst e) (snd e)) match stored d1 mem i with Some content => [(i, content)] | None => [] end ++ [])
    (mk_site (Some mem) (mk_device mem (put (stored d1) mem i None)) (before ++ at_spot true [st] (CErase [s1] [i] []) :: after))).
  { apply R1. apply Pr. right. intros m k c F. destruct (stored d1 mem i); cbn in F; [destruct F as [F|[]]; discriminate F|destruct F]. }
  clear R1. rename R1' into R1.
  assert (R2 := go_quiet _ _ _ _ _ _ _ _ _ _ _ _ _ R1 (c_erased mode true [st] [s1] [i] (Some mem)) eq_refl ltac:(calm Pr)).
  assert (R3 := go_quiet _ _ _ _ _ _ _ _ _ _ _ _ _ R2 (c_hand mode [st] s1 [] (Some mem)) eq_refl ltac:(calm Pr)).
  assert (R4 := go_quiet _ _ _ _ _ _ _ _ _ _ _ _ _ R3 (c_last mode st (Some mem)) eq_refl ltac:(calm Pr)).
  cbn [map app] in R4. rewrite !app_nil_r, <- app_assoc in R4. rewrite S1 in R4. destruct (stored d1 mem i); exact R4.
Qed.
Theorem given_twice : stat_of s1 = st -> st <> 4 -> exists s,
  evolves mode no_reuse (mk_site (Some mem) d []) [Came mem i c1; Began round_of; Gone mem i c1; Told s1; Told s1] s /\
  threads s = [at_place mem ds (Delivered s1); at_spot true [] CDone].
Proof.
  intros St N4. assert (Pr : forall s a s', threads s = [] \/ (forall m k c, ~ In (Came m k c) a) -> no_reuse s a s').
  { intros s a s' [E|F] m k c t I It; [rewrite E in It; destruct It|destruct (F _ _ _ I)]. }
  assert (H := both no_reuse St N4 Pr).
  apply (rest_of_round _ _ _ [at_place mem ds (Delivered s1)] []) in H; auto. cbn [stored] in H. rewrite put_same in H. cbn [app] in H. eexists. split; [exact H|reflexivity].
Qed.
Theorem other_lost c2 : stat_of s1 = st -> st <> 4 -> exists s,
  evolves mode any_step (mk_site (Some mem) d []) [Came mem i c1; Began round_of; Gone mem i c1; Told s1; Came mem i c2; Gone mem i c2; Told s1] s /\
  threads s = [at_place mem ds (Delivered s1); at_spot true [] CDone; at_place mem ds Compare] /\ forall k, stored (machine s) mem k = None.
Proof.
  intros St N4. assert (H := both any_step St N4 (fun _ _ _ _ => I)).
  assert (R1 := ev_step _ _ _ _ _ _ _ H (ss_arrive mode (Some mem) (mk_device mem (put (full (stored d)) mem i None)) _ mem ds c2 true N Q D (put_same _ _ _ _)) I). cbn [app] in R1. fold i in R1. cbn [sel stored] in R1.
  apply (rest_of_round _ _ _ [at_place mem ds (Delivered s1)] [at_place mem ds Compare]) in R1; auto. 2: exact (fun _ _ _ _ => I). cbn [stored] in R1. rewrite put_same in R1. cbn [app] in R1.
  eexists. split; [exact R1|]. split; [reflexivity|]. intro k. cbn [machine stored].
  destruct (Z.eq_dec k i) as [->|Ne]; [apply put_same|]. unfold full. rewrite !put_else by congruence. apply Em.
Qed.

Theorem collected_once : stat_of s1 = st -> st <> 4 -> exists s,
  evolves mode one_at_a_time (mk_site (Some mem) d []) [Came mem i c1; Began round_of; Gone mem i c1; Told s1] s /\ threads s = [at_spot true [] CDone].
Proof.
  intros St N4. destruct (param_command mode st p Sp) as (p' & Sp' & Cm). assert (S4 : (st =? 4) = false) by (apply Z.eqb_neq; auto).
  assert (Pr : forall s a s' t, threads s' = [t] -> one_at_a_time s a s').
  { intros s a s' t E. unfold one_at_a_time. rewrite E. cbn [filter]. destruct (claims t); cbn; lia. }
  assert (R0 := ev_nil mode one_at_a_time (mk_site (Some mem) d [])).
  assert (R1 := ev_step _ _ _ _ _ _ _ R0 (ss_arrive mode (Some mem) d [] mem ds c1 false N Q D (Em _)) ltac:(unfold one_at_a_time; cbn; lia)).
  cbn [app] in R1. fold i in R1. rewrite Sl in R1. fold (full (stored d)) in R1.
  assert (R2 := ev_step _ _ _ _ _ _ _ R1 (ss_begin mode (Some mem) _ _ round_of eq_refl ltac:(discriminate)) ltac:(eapply Pr; reflexivity)). cbn [app] in R2. clear R0 R1.
  set (dA := mk_device mem (full (stored d))) in *.
  assert (R3 := go_quiet _ _ _ _ [] (at_spot true [st] CCompare) [] _ _ _ _ _ _ R2 (c_compare mode true [st] (Some mem)) eq_refl ltac:(eapply Pr; reflexivity)). cbn [map app] in R3.
  assert (Nd : NoDup (map fst [(dec_value ds, s1)])) by (cbn; constructor; [intros []|constructor]).
  assert (T := c_list mode true st [] p' (Some mem) answer _ Cm G De Nd). rewrite S4 in T. cbn [map fst snd] in T. fold i in T.
  assert (Sv : serves mode dA (lit "AT+CMGL=" ++ p' ++ [13]) (Lines answer) [] (mk_device mem (full (stored d)))).
  { apply (sv_list mode dA st p' answer [(i, s1)] (full (stored d))); auto; [|apply touched_refl]. apply alone_listed; auto. }
  assert (R4 := go_write _ _ _ _ [] (at_spot true [st] CList) [] _ _ _ _ [] _ _ _ _ R3 T Sv eq_refl ltac:(eapply Pr; reflexivity)). cbn [map app failed at_spot c_spot] in R4. fold dA in R4.
  assert (I0 : 0 <= i) by (apply dec_value_nonneg; auto). destruct (erase_text i I0) as [Di Ei].
  assert (Sd := sv_delete' mode dA (str_of_Z i) Di). rewrite Ei in Sd. cbn [sel stored dA] in Sd. unfold full at 1 in Sd. rewrite put_same in Sd.
  assert (R8 := go_write _ _ _ _ [] (at_spot true [st] (CErase [s1] [i] [i])) [] _ _ _ _ _ _ _ _ _ R4 (c_erase mode true [st] [s1] [i] i [] (Some mem)) Sd eq_refl ltac:(eapply Pr; reflexivity)).
  cbn [map app failed at_spot c_spot fst snd sel] in R8.
  assert (R9 := go_quiet _ _ _ _ [] _ [] _ _ _ _ _ _ R8 (c_erased mode true [st] [s1] [i] (Some mem)) eq_refl ltac:(eapply Pr; reflexivity)).
  assert (R10 := go_quiet _ _ _ _ [] _ [] _ _ _ _ _ _ R9 (c_hand mode [st] s1 [] (Some mem)) eq_refl ltac:(eapply Pr; reflexivity)).
  assert (R11 := go_quiet _ _ _ _ [] _ [] _ _ _ _ _ _ R10 (c_last mode st (Some mem)) eq_refl ltac:(eapply Pr; reflexivity)). cbn [map app] in R11.
  eexists. split; [exact R11|reflexivity].
Qed.

Definition all_of : collector := mk_collector None false [4] CCompare.
Theorem wiped_lost es c2 : st = 4 -> digits es -> dec_value es <> i -> let j := dec_value es in exists s e,
  evolves mode any_step (mk_site (Some mem) d []) [Came mem i c1; Began all_of; Came mem j c2; Gone mem i c1; Gone mem j c2; Told s1] s /\
  threads s = [at_spot false [4] CDone; at_place mem es (Failed e)] /\ forall k, stored (machine s) mem k = None.
Proof.
  intros S4 D2 Ne j. destruct (param_command mode st p Sp) as (p' & Sp' & Cm).
  assert (R0 := ev_nil mode any_step (mk_site (Some mem) d [])).
  assert (R1 := ev_step _ _ _ _ _ _ _ R0 (ss_arrive mode (Some mem) d [] mem ds c1 false N Q D (Em _)) I). cbn [app] in R1. fold i in R1. rewrite Sl in R1. fold (full (stored d)) in R1.
  assert (R2 := ev_step _ _ _ _ _ _ _ R1 (ss_begin mode (Some mem) _ _ all_of eq_refl ltac:(discriminate)) I). cbn [app] in R2. clear R0 R1.
  set (dA := mk_device mem (full (stored d))) in *.
  assert (R3 := go_quiet _ _ _ _ [] (at_spot false [4] CCompare) [] _ _ _ _ _ _ R2 (c_compare mode false [4] (Some mem)) eq_refl I). cbn [map app] in R3.
  assert (Nd : NoDup (map fst [(dec_value ds, s1)])) by (cbn; constructor; [intros []|constructor]).
  assert (T := c_list mode false st [] p' (Some mem) answer _ Cm G De Nd). rewrite S4 in T. cbn [map fst snd Z.eqb Pos.eqb] in T. fold i in T.
  assert (Sv : serves mode dA (lit "AT+CMGL=" ++ p' ++ [13]) (Lines answer) [] (mk_device mem (full (stored d)))).
  { apply (sv_list mode dA st p' answer [(i, s1)] (full (stored d))); auto; [|apply touched_refl]. apply alone_listed; auto. }
  assert (R4 := go_write _ _ _ _ [] (at_spot false [4] CList) [] _ _ _ _ [] _ _ _ _ R3 T Sv eq_refl I). cbn [map app failed at_spot c_spot] in R4. fold dA in R4.
  assert (Fj : stored dA mem (dec_value es) = None) by (cbn; unfold full; rewrite put_else by (intros [= F]; auto); apply Em).
  assert (R5 := ev_step _ _ _ _ _ _ _ R4 (ss_arrive mode (Some mem) dA _ mem es c2 true N Q D2 Fj) I). cbn [app sel stored dA] in R5. fold j in R5.
  set (dB := mk_device mem (put (full (stored d)) mem j (Some c2))) in *.
  assert (Sw : serves mode dB (lit "AT+CMGD=1,4" ++ CR) (Lines OKs) [(i, c1); (j, c2)] (mk_device mem (wiped (stored dB) mem))).
  { apply (sv_wipe mode dB OKs); [apply ok_good| |].
    - cbn. constructor; [intros [F|[]]; auto|constructor; [intros []|constructor]].
    - intros k content. cbn [In sel stored dB]. split.
      + intros [[= <- <-]|[[= <- <-]|[]]]; [rewrite put_else by (intros [= F]; auto); apply put_same|apply put_same].
      + destruct (Z.eq_dec k j) as [->|Nj]; [rewrite put_same; intros [= <-]; auto|]. rewrite put_else by congruence. unfold full.
        destruct (Z.eq_dec k i) as [->|Ni]; [rewrite put_same; intros [= <-]; auto|]. rewrite put_else, Em by congruence. discriminate. }
  assert (R6 := go_write _ _ _ _ [] (at_spot false [4] (CWipe [s1])) [at_place mem es Compare] _ _ _ _ _ _ _ _ _ R5 (c_wipe mode false [4] [s1] (Some mem)) Sw eq_refl I).
  cbn [map app failed at_spot c_spot fst snd sel dB] in R6.
  assert (R7 := go_quiet _ _ _ _ [] (at_spot false [4] (CHand [s1])) [at_place mem es Compare] _ _ _ _ _ _ R6 (c_return mode [4] [s1] (Some mem)) eq_refl I). cbn [map app] in R7.
  assert (R8 := go_quiet _ _ _ _ [at_spot false [4] CDone] (at_place mem es Compare) [] _ _ _ _ _ _ R7 (h_compare mode mem es (Some mem)) eq_refl I). cbn [map app] in R8.
  replace (opt_str_eqb (Some mem) (Some mem)) with true in R8 by (cbn; destruct (str_eqb_spec mem mem); congruence).
  assert (R9 := go_write _ _ _ _ [at_spot false [4] CDone] (at_place mem es Fetch) [] _ _ _ _ [] _ _ _ _ R8 (h_missing mode mem es (Some mem)) (sv_fail mode _ _ _ no_message_failing) eq_refl I).
  cbn [map app failed at_place h_place holds] in R9.
  eexists _, _. split; [exact R9|]. split; [reflexivity|]. intro k. cbn. unfold wiped. destruct (str_eqb_spec mem mem); congruence.
Qed.

(** another memory is selected between the listing and the deletion *)
Theorem elsewhere_lost mem2 c2 : mem2 <> mem -> mem2 <> [] -> ~ In 34 mem2 -> stored d mem2 i = None -> stat_of s1 = st -> st <> 4 -> exists s,
  evolves mode any_step (mk_site (Some mem) d []) [Came mem i c1; Began round_of; Came mem2 i c2; Gone mem2 i c2; Told s1] s /\
  threads s = [at_spot true [] CDone; at_place mem2 ds Remember] /\ stored (machine s) mem i = Some c1 /\ stored (machine s) mem2 i = None.
Proof.
  intros Nm N2 Q2 E2 St N4. destruct (param_command mode st p Sp) as (p' & Sp' & Cm). assert (S4 : (st =? 4) = false) by (apply Z.eqb_neq; auto).
  assert (R0 := ev_nil mode any_step (mk_site (Some mem) d [])).
  assert (R1 := ev_step _ _ _ _ _ _ _ R0 (ss_arrive mode (Some mem) d [] mem ds c1 false N Q D (Em _)) I). cbn [app] in R1. fold i in R1. rewrite Sl in R1. fold (full (stored d)) in R1.
  assert (R2 := ev_step _ _ _ _ _ _ _ R1 (ss_begin mode (Some mem) _ _ round_of eq_refl ltac:(discriminate)) I). cbn [app] in R2. clear R0 R1.
  set (dA := mk_device mem (full (stored d))) in *.
  assert (R3 := go_quiet _ _ _ _ [] (at_spot true [st] CCompare) [] _ _ _ _ _ _ R2 (c_compare mode true [st] (Some mem)) eq_refl I). cbn [map app] in R3.
  assert (Nd : NoDup (map fst [(dec_value ds, s1)])) by (cbn; constructor; [intros []|constructor]).
  assert (T := c_list mode true st [] p' (Some mem) answer _ Cm G De Nd). rewrite S4 in T. cbn [map fst snd] in T. fold i in T.
  assert (Sv : serves mode dA (lit "AT+CMGL=" ++ p' ++ [13]) (Lines answer) [] (mk_device mem (full (stored d)))).
  { apply (sv_list mode dA st p' answer [(i, s1)] (full (stored d))); auto; [|apply touched_refl]. apply alone_listed; auto. }
  assert (R4 := go_write _ _ _ _ [] (at_spot true [st] CList) [] _ _ _ _ [] _ _ _ _ R3 T Sv eq_refl I). cbn [map app failed at_spot c_spot] in R4. fold dA in R4.
  assert (Fj : stored dA mem2 (dec_value ds) = None) by (cbn; unfold full; rewrite put_else by congruence; auto).
  assert (R5 := ev_step _ _ _ _ _ _ _ R4 (ss_arrive mode (Some mem) dA _ mem2 ds c2 true N2 Q2 D Fj) I). cbn [app sel stored dA] in R5. fold i in R5.
  set (dB := mk_device mem (put (full (stored d)) mem2 i (Some c2))) in *.
  assert (R6 := go_quiet _ _ _ _ [at_spot true [st] (CErase [s1] [i] [i])] (at_place mem2 ds Compare) [] _ _ _ _ _ _ R5 (h_compare mode mem2 ds (Some mem)) eq_refl I). cbn [map app] in R6.
  replace (opt_str_eqb (Some mem2) (Some mem)) with false in R6 by (cbn; destruct (str_eqb_spec mem2 mem); congruence).
  assert (R7 := go_write _ _ _ _ [at_spot true [st] (CErase [s1] [i] [i])] (at_place mem2 ds Select) [] _ _ _ _ [] _ _ _ _ R6 (h_select mode mem2 ds (Some mem)) (sv_select' mode dB mem2 Q2) eq_refl I).
  cbn [map app failed at_place h_place stored dB] in R7.
  assert (I0 : 0 <= i) by (apply dec_value_nonneg; auto). destruct (erase_text i I0) as [Di Ei].
  assert (Sd := sv_delete' mode (mk_device mem2 (put (full (stored d)) mem2 i (Some c2))) (str_of_Z i) Di). rewrite Ei in Sd. cbn [sel stored] in Sd. rewrite put_same in Sd.
  assert (R8 := go_write _ _ _ _ [] (at_spot true [st] (CErase [s1] [i] [i])) [at_place mem2 ds Remember] _ _ _ _ _ _ _ _ _ R7 (c_erase mode true [st] [s1] [i] i [] (Some mem)) Sd eq_refl I).
  cbn [map app failed at_spot c_spot fst snd sel] in R8.
  assert (R9 := go_quiet _ _ _ _ [] _ [at_place mem2 ds Remember] _ _ _ _ _ _ R8 (c_erased mode true [st] [s1] [i] (Some mem)) eq_refl I).
  assert (R10 := go_quiet _ _ _ _ [] _ [at_place mem2 ds Remember] _ _ _ _ _ _ R9 (c_hand mode [st] s1 [] (Some mem)) eq_refl I).
  assert (R11 := go_quiet _ _ _ _ [] _ [at_place mem2 ds Remember] _ _ _ _ _ _ R10 (c_last mode st (Some mem)) eq_refl I). cbn [map app] in R11.
  eexists. split; [exact R11|]. split; [reflexivity|]. cbn [machine stored]. split; [|apply put_same]. rewrite !put_else by congruence. apply put_same.
Qed.
End Executions.
