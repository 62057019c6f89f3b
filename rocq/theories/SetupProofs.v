(** Proofs about what connect finds out and sets up. *)
From Verif Require Import Base RegexModel RegexProofs UtilModel ModemCore ModemSpec WriteProofs MonadProofs SendSpec SendProofs TrackSpec CoverageSpec CoverageProofs QueryProofs TrieProofs ModemFinal SmsModel CallModel RingProofs ConnectModel ConnectSpec ConnectProofs CentreProofs UssdModel UssdSpec UssdProofs SetupSpec.

(** ** Pieces of text *)
Lemma split_char_spec c s : fields [c] s (split_char c s).
Proof.
  assert (N : forall s, split_char c s <> []).
  { clear. intros [|x s]; cbn; [discriminate|]. destruct (x =? c); [discriminate|]. destruct (split_char c s); discriminate. }
  split; [apply N|]. split.
  - induction s as [|x s IH]; [reflexivity|]. cbn [split_char]. destruct (Z.eqb_spec x c) as [->|X].
    + cbn [join]. specialize (N s). destruct (split_char c s); [congruence|]. cbn [app] in *. congruence.
    + specialize (N s). destruct (split_char c s) as [|p ps]; [congruence|]. destruct ps; cbn [join app] in *; congruence.
  - assert (Q : forall f, ~ In c f -> ~ ModemSpec.substring [c] f) by (intros f H (a & b & ->); apply H; apply in_or_app; right; left; auto).
    induction s as [|x s IH]; [constructor; [apply Q; intros []|constructor]|]. cbn [split_char]. destruct (Z.eqb_spec x c) as [->|X].
    + constructor; auto.
    + specialize (N s). destruct (split_char c s) as [|p ps]; [congruence|]. inversion IH as [|? ? H1 H2]; subst. constructor; auto.
      apply Q. intros [<-|H]; [congruence|]. apply H1. apply in_split in H as (a & b & ->). exists a, b. auto.
Qed.
Lemma split_on_spec s : fields (lit "),(") s (split_on (lit "),(") s).
Proof.
  unfold split_on. remember (S (length s)) as fuel eqn:E. assert (L : (length s < fuel)%nat) by lia. clear E. revert s L.
  induction fuel as [|fuel IH]; intros s L; [lia|]. cbn [split_on_aux].
  assert (Q0 : ~ ModemSpec.substring (lit "),(") []) by (intros (a & b & H); destruct a; discriminate).
  destruct s as [|x s].
  - split; [discriminate|]. split; [reflexivity|]. constructor; auto.
  - destruct (startswith (x :: s) (lit "),(")) eqn:E.
    + apply startswith_app in E as [r E]. rewrite E. change (skipn (length (lit "),(")) (lit "),(" ++ r)) with r.
      assert (length r < fuel)%nat. { assert (length (x :: s) = length (lit "),(" ++ r)) by congruence. cbn in H, L. lia. }
      destruct (IH r H) as (N & J & F). split; [discriminate|]. split; [|constructor; auto].
      cbn [join]. destruct (split_on_aux fuel (lit "),(") r); [congruence|]. cbn [app]. rewrite J at 1. reflexivity.
    + assert (length s < fuel)%nat by (cbn in L; lia). destruct (IH s H) as (N & J & F).
      destruct (split_on_aux fuel (lit "),(") s) as [|p ps]; [congruence|]. split; [discriminate|]. split.
      * rewrite J. destruct ps; reflexivity.
      * inversion F as [|? ? F1 F2]; subst. constructor; auto. intros (a & b & H2). destruct a as [|y a].
        -- cbn [app] in H2. assert (startswith (x :: join (lit "),(") (p :: ps)) (lit "),(") = true); [|congruence].
           apply startswith_app. injection H2 as -> ->. destruct ps; cbn; eexists; reflexivity.
        -- injection H2 as -> ->. apply F1. exists a, b. auto.
Qed.
Lemma strip_bare s : bare s (strip s).
Proof.
  assert (O1 : forall s, starts_outside is_space (lstrip s)) by (clear; intro s; destruct (lstrip_split s) as (a & _ & _ & O); exact O).
  unfold strip. destruct (lstrip_split s) as (a & E & B & O). destruct (lstrip_split (rev (lstrip s))) as (b & E2 & B2 & O2).
  exists a, (rev b). split; [|split; [auto|split; [apply Forall_rev; auto|split]]].
  - rewrite E at 1. f_equal. rewrite <- rev_app_distr, <- E2, rev_involutive. auto.
  - intros c r H. assert (R : lstrip s = (c :: r) ++ rev b) by (rewrite <- H, <- rev_app_distr, <- E2, rev_involutive; auto).
    rewrite R in O. exact O.
  - intros r c H. assert (R : lstrip (rev (lstrip s)) = c :: rev r) by (rewrite <- (rev_involutive (lstrip (rev (lstrip s)))), H, rev_app_distr; auto).
    rewrite R in O2. exact O2.
Qed.
Lemma mem_str_spec s l : mem_str s l = true <-> In s l.
Proof.
  unfold mem_str. rewrite existsb_exists. split.
  - intros (x & I & E). destruct (str_eqb_spec s x); [subst; auto|discriminate].
  - intro I. exists s. split; auto. apply str_eqb_refl.
Qed.
Lemma lower_huawei s : str_eqb (lower s) (lit "huawei") = true <-> Forall2 same_letter s (lit "huawei").
Proof.
  assert (G : forall t, Forall (fun c => 97 <= c) t -> lower s = t <-> Forall2 same_letter s t).
  { induction s as [|c s IH]; intros t F.
    - cbn. split; [intros <-; constructor|intro H; inversion H; auto].
    - destruct t as [|d t]; [split; [discriminate|intro H; inversion H]|]. inversion F as [|? ? F1 F2]; subst. cbn. split.
      + intro H. injection H as H1 H2. constructor; [|apply IH; auto]. unfold same_letter. destruct ((65 <=? c) && (c <=? 90)) eqn:E; lia.
      + intro H. inversion H as [|? ? ? ? S H2]; subst. f_equal; [|apply IH; auto]. destruct ((65 <=? c) && (c <=? 90)) eqn:E; unfold same_letter in S; lia. }
  rewrite <- (G (lit "huawei")); [|vm_compute; repeat (apply Forall_cons; [discriminate|]); apply Forall_nil]. destruct (str_eqb_spec (lower s) (lit "huawei")); split; auto; discriminate.
Qed.


(** ** What was asked *)
(** the command [t], again after busy replies, with the last answer [r] *)
Definition said (t : str) (l : list (str * option reply)) (r : reply) : Prop := exists busy codes, l = map (ask t) (busy ++ [r]) /\ all_busy busy codes.
Definition foreign (t : str) (l : list (str * option reply)) : Prop := Forall (fun q => fst q <> t ++ [13]) l.
Lemma busy_not_good code r ls : busy_reply code r -> r = Lines ls -> good_answer ls -> False.
Proof.
  intros (_ & l & line & k & -> & C) E (b & g & -> & [G _]). injection E as E. apply app_inj_tail in E as [-> ->]. apply G. eapply cm_is_error; eauto.
Qed.
Lemma said_in t l r : said t l r -> In (ask t r) l.
Proof. intros (busy & codes & -> & _). apply in_map. apply in_or_app. right. left. auto. Qed.
Lemma said_only t l r q : said t l r -> In (ask t q) l -> q = r \/ exists code, busy_reply code q.
Proof.
  intros (busy & codes & -> & B) I. apply in_map_iff in I as (q' & E & I). unfold ask in E. injection E as ->. apply in_app_iff in I as [I|[<-|[]]]; auto.
  right. clear - B I. induction B; [destruct I|]. destruct I as [<-|I]; eauto.
Qed.
Lemma said_accepted t l ls : said t l (Lines ls) -> good_answer ls -> accepted t l.
Proof. intros S G. exists ls. split; auto. apply said_in. auto. Qed.
Lemma said_refused t l r : said t l r -> refusal r -> refused_command t l /\ ~ accepted t l.
Proof.
  intros S R. split; [exists r; split; auto; apply said_in; auto|]. intros (ls & I & G). apply (said_only _ _ _ _ S) in I as [E|(code & B)].
  - destruct R as (_ & b & line & -> & N). injection E as ->. destruct G as (b' & g & E & G). apply app_inj_tail in E as [-> ->]. auto.
  - eapply busy_not_good; eauto.
Qed.
Lemma said_foreign t t' l r : said t l r -> t <> t' -> foreign t' l.
Proof.
  intros (busy & codes & -> & _) N. apply Forall_forall. intros q I. apply in_map_iff in I as (r' & <- & _). cbn. intro E. apply app_inj_tail in E as [E _]. auto.
Qed.
Lemma foreign_app t a b : foreign t (a ++ b) <-> foreign t a /\ foreign t b. Proof. apply Forall_app. Qed.
Lemma accepted_app t a b : accepted t (a ++ b) <-> accepted t a \/ accepted t b.
Proof.
  split.
  - intros (ls & I & G). apply in_app_iff in I as [I|I]; [left|right]; exists ls; auto.
  - intros [(ls & I & G)|(ls & I & G)]; exists ls; split; auto; apply in_or_app; auto.
Qed.
Lemma refused_app t a b : refused_command t (a ++ b) <-> refused_command t a \/ refused_command t b.
Proof.
  split.
  - intros (r & I & G). apply in_app_iff in I as [I|I]; [left|right]; exists r; auto.
  - intros [(r & I & G)|(r & I & G)]; exists r; split; auto; apply in_or_app; auto.
Qed.
Lemma foreign_accepted t l : foreign t l -> ~ accepted t l.
Proof. intros F (ls & I & _). unfold foreign in F. rewrite Forall_forall in F. apply (F _ I). auto. Qed.
Lemma foreign_sent t l : foreign t l -> ~ sent t l.
Proof. intros F I. unfold sent in I. apply in_map_iff in I as (q & E & I). unfold foreign in F. rewrite Forall_forall in F. apply (F _ I). auto. Qed.
(** methods that do not use the command [t] *)
Definition not_text (t : str) (e : event) : Prop := match e with EWrite x _ => x <> t ++ [13] | _ => True end.
Lemma only_foreign {A} t (c : M A) w x w' : only (not_text t) c -> c w = Done x w' -> exists l, asked (trace w') = asked (trace w) ++ l /\ foreign t l.
Proof.
  intros O H. destruct (O w) as (evs & T & F). rewrite H in T. cbn in T. exists (asked evs). rewrite T, asked_app. split; auto.
  clear - F. induction F as [|e evs H _ IH]; [constructor|]. destruct e; cbn; auto. constructor; auto.
Qed.

(** ** Commands *)
Lemma not_good_refusal t r e : not_busy r -> outcome t r (Err e) -> is_CommandError e = true -> refusal r.
Proof.
  intros NB O C. split; auto. inversion O; subst; try discriminate C.
  - exists ls, line. split; auto. intros [G _]. apply G. eapply cm_is_error; eauto.
  - exists ls, line. split; auto. intros [G _]. auto.
  - exists ls, (lit "COMMAND NOT SUPPORT"). split; auto. intros [_ G]. apply G. reflexivity.
Qed.
Lemma refusal_raises t r : refusal r -> exists e, outcome t r (Err e) /\ is_CommandError e = true.
Proof.
  intros (NB & b & line & -> & N). destruct (reply_cases t (Lines (b ++ [line]))) as [(code & B)|(_ & x & O)]; [destruct (NB code); auto|].
  inversion O as [| |E|ls g G E|ls g k code e C B F E|ls g G C E|ls E]; subst; try (destruct b; discriminate E); apply app_inj_tail in E as [-> ->].
  - contradiction.
  - exists e. split; auto. destruct F; auto.
  - eexists. split; [exact O|auto].
  - eexists. split; [exact O|auto].
Qed.
Lemma write_said t w x w' : write t w = Done x w' -> exists l r v, asked (trace w') = asked (trace w) ++ l /\ said t l r /\ not_busy r /\ outcome t r x /\ dev w' = set_writeWait v (dev w).
Proof.
  intro H. apply write_done in H as (busy & codes & r & _ & B & NB & O & D & T). exists (map (ask t) (busy ++ [r])), r. eexists.
  rewrite T, asked_app, asked_attempts. split; auto. split; [exists busy, codes; auto|]. exact (conj NB (conj O D)).
Qed.
Lemma write_accepted t w ls w' : write t w = Done (Ok ls) w' -> exists l v, asked (trace w') = asked (trace w) ++ l /\ said t l (Lines ls) /\ good_answer ls /\ dev w' = set_writeWait v (dev w).
Proof.
  intro H. apply write_said in H as (l & r & v & T & S & NB & O & D). apply outcome_ok in O as [-> G]. exists l, v. auto.
Qed.
(** a command that may be refused *)
Lemma try_said {A} t (k : list str -> M A) (a b : A) w x w' : (forall ls w, k ls w = Done (Ok a) w) ->
  try_except (mbind (write t) k) (on_CommandError (ret b)) w = Done (Ok x) w' ->
  exists l r v, asked (trace w') = asked (trace w) ++ l /\ said t l r /\ dev w' = set_writeWait v (dev w) /\
    ((x = a /\ exists ls, r = Lines ls /\ good_answer ls) \/ (x = b /\ refusal r)).
Proof.
  intros K H. unfold try_except in H. destruct (mbind (write t) k w) as [[y|e] w1|w1] eqn:E; [| |discriminate].
  - injection H as -> ->. apply bind_ok in E as (ls & w1 & W & E). rewrite K in E. injection E as <- <-. apply write_accepted in W as (l & v & T & S & G & D).
    exists l, (Lines ls), v. split; auto. split; auto. split; auto. left. eauto.
  - apply bind_done in E as [(ls & w2 & _ & E)|(e' & W & E)]; [rewrite K in E; discriminate|]. injection E as <-. unfold on_CommandError in H.
    destruct (is_CommandError e) eqn:C; [|discriminate]. unfold ret in H. injection H as <- <-. apply write_said in W as (l & r & v & T & S & NB & O & D).
    exists l, r, v. split; auto. split; auto. split; auto. right. split; auto. eapply not_good_refusal; eauto.
Qed.

(** ** Simple queries *)
Lemma first_exact t w x : (exists w', query_first t w = Done (Ok x) w') <->
  exists busy codes more rest, script w = busy ++ Lines (x :: more) :: rest /\ all_busy busy codes /\ good_answer (x :: more).
Proof.
  split.
  - intros (w' & H). unfold query_first in H. apply bind_ok in H as (ls & w1 & W & H). apply ask_ok in W as (busy & codes & E & B & G & _).
    destruct ls as [|l more]; [discriminate|]. cbn in H. injection H as <- <-. exists busy, codes, more, (script w1). auto.
  - intros (busy & codes & more & rest & E & B & G). destruct (ask_good t w _ _ _ _ E B G) as (w' & W & _). exists w'. unfold query_first. rewrite (bind_run _ _ _ _ _ W). reflexivity.
Qed.
Lemma write_refused t w busy codes r rest : script w = busy ++ r :: rest -> all_busy busy codes -> refusal r -> exists e w', write t w = Done (Err e) w' /\ is_CommandError e = true.
Proof.
  intros E B R. destruct (refusal_raises t r R) as (e & O & C). destruct R as [NB _]. exists e.
  exists (mk_world (set_writeWait (wait_after (@Err (list str) e) (writeWait (dev w)) codes) (dev w)) rest (trace w ++ attempts (t ++ CR) (writeWait (dev w)) busy r)).
  split; auto. unfold write. apply write_done. exists busy, codes, r. cbn. auto 8.
Qed.
Lemma write_refused_inv t w e w' : write t w = Done (Err e) w' -> is_CommandError e = true -> exists busy codes r, script w = busy ++ r :: script w' /\ all_busy busy codes /\ refusal r.
Proof.
  intros H C. apply write_done in H as (busy & codes & r & E & B & NB & O & _). exists busy, codes, r. repeat split; auto; eapply not_good_refusal; eauto.
Qed.
Lemma revision_exact w x : (exists w', revision w = Done (Ok x) w') <->
  match x with
  | Some x => exists busy codes more rest, script w = busy ++ Lines (x :: more) :: rest /\ all_busy busy codes /\ good_answer (x :: more)
  | None => exists busy codes r rest, script w = busy ++ r :: rest /\ all_busy busy codes /\ refusal r
  end.
Proof.
  assert (NF : forall w e w', query_first (lit "AT+CGMR") w = Done (Err e) w' -> is_CommandError e = true -> write (lit "AT+CGMR") w = Done (Err e) w').
  { clear. intros w e w' H C. unfold query_first in H. apply bind_done in H as [(ls & w1 & W & H)|(e' & W & E)]; [|congruence]. destruct ls; cbn in H; [injection H as <- _; discriminate|discriminate]. }
  destruct x as [x|]; split.
  - intros (w' & H). apply (first_exact (lit "AT+CGMR")). unfold revision, try_except in H. unfold mbind in H. destruct (query_first (lit "AT+CGMR") w) as [[y|e] w1|w1] eqn:E; [| |discriminate].
    + cbn in H. injection H as <- <-. eauto.
    + destruct (is_CommandError e); [discriminate H|discriminate H].
  - intro H. apply (first_exact (lit "AT+CGMR")) in H as (w' & H). exists w'. unfold revision, try_except. rewrite (bind_run _ _ _ _ _ H). reflexivity.
  - intros (w' & H). unfold revision, try_except, mbind in H. destruct (query_first (lit "AT+CGMR") w) as [[y|e] w1|w1] eqn:E; [discriminate| |discriminate].
    destruct (is_CommandError e) eqn:C; [|discriminate]. destruct (write_refused_inv _ _ _ _ (NF _ _ _ E C) C) as (busy & codes & r & S & B & R). exists busy, codes, r, (script w1). auto.
  - intros (busy & codes & r & rest & E & B & R). destruct (write_refused (lit "AT+CGMR") w _ _ _ _ E B R) as (e & w' & W & C). exists w'.
    unfold revision, try_except, query_first, mbind. rewrite W, C. reflexivity.
Qed.
Lemma without_spec line : without_clac line (if startswith line (lit "+CLAC") then skipn 6 line else line).
Proof.
  destruct (startswith line (lit "+CLAC")) eqn:E.
  - apply startswith_app in E as [r ->]. destruct r as [|c r]; [right; left; auto|]. right. right. exists c. reflexivity.
  - left. split; auto. intros [r ->]. assert (startswith (lit "+CLAC" ++ r) (lit "+CLAC") = true) by (apply startswith_app; eexists; reflexivity). congruence.
Qed.
Lemma Forall2_map_strip l : Forall2 bare l (map strip l).
Proof. induction l; constructor; auto. apply strip_bare. Qed.
Lemma commands_said w x w' : supportedCommands w = Done (Ok x) w' -> exists l r v busy codes, asked (trace w') = asked (trace w) ++ l /\ said (lit "AT+CLAC") l r /\ heard r x /\ dev w' = set_writeWait v (dev w) /\
  script w = busy ++ r :: script w' /\ all_busy busy codes.
Proof.
  intro H. unfold supportedCommands, try_except in H. destruct (mbind _ _ w) as [[y|e] w1|w1] eqn:E; [| |discriminate].
  - injection H as -> ->. apply bind_ok in E as (ls & w1 & W & E). unfold write in W. apply write_done in W as (busy & codes & r & S & B & NB & O & D & T).
    apply outcome_ok in O as [-> G]. assert (w1 = w' /\ heard (Lines ls) x) as [-> Hx].
    { destruct G as (b & g & -> & G). clear - E G. destruct b as [|l1 b]; [cbn in E; injection E as <- <-; split; [reflexivity|right; exists g; split; [reflexivity|exact G]]|]. destruct b as [|l2 b].
      - cbn [app] in E. unfold ret in E. injection E as <- <-. split; auto. exists [l1; g]. split; auto. split; [exists [l1], g; auto|]. econstructor; [apply without_spec|apply split_char_spec].
      - cbn [app] in E. assert (E' : Done (Ok (Some (map strip (l1 :: l2 :: b)))) w1 = Done (Ok x) w').
        { rewrite <- E. replace (removelast (l1 :: l2 :: b ++ [g])) with (l1 :: l2 :: b); [destruct b; reflexivity|]. change (l1 :: l2 :: b ++ [g]) with ((l1 :: l2 :: b) ++ [g]). rewrite removelast_last. auto. }
        injection E' as <- <-. split; auto. exists (l1 :: l2 :: b ++ [g]). split; auto. split; [exists (l1 :: l2 :: b), g; auto|]. constructor.
        apply (Forall2_map_strip (l1 :: l2 :: b)). }
    eexists _, (Lines ls), _, busy, codes. rewrite T, asked_app, asked_attempts. split; [reflexivity|]. split; [exists busy, codes; auto|]. split; [exact Hx|]. split; [exact D|auto].
  - destruct (is_CommandError e) eqn:C; [|discriminate]. unfold ret in H. injection H as <- <-.
    apply bind_done in E as [(ls & w2 & W & E)|(e' & W & E)].
    + destruct ls as [|l1 [|l2 [|l3 ls]]]; cbn in E; discriminate.
    + injection E as <-. unfold write in W. apply write_done in W as (busy & codes & r & S & B & NB & O & D & T).
      eexists _, r, _, busy, codes. rewrite T, asked_app, asked_attempts. split; [reflexivity|]. split; [exists busy, codes; auto|]. split; [left; eapply not_good_refusal; eauto|]. split; [exact D|auto].
Qed.

(** the pieces are determined when the separator does not overlap itself *)
Definition solid (sep : str) : Prop := sep <> [] /\ forall a b c, sep = a ++ b -> sep = b ++ c -> a = [] \/ b = [].
Lemma solid_cut sep p p' r r' : solid sep -> ~ ModemSpec.substring sep p -> ~ ModemSpec.substring sep p' -> p ++ sep ++ r = p' ++ sep ++ r' -> p = p' /\ r = r'.
Proof.
  intros [N So]. assert (W : forall p p' l r r', ~ ModemSpec.substring sep p' -> p' = p ++ l -> sep ++ r = l ++ sep ++ r' -> l = []).
  { clear p p' r r'. intros p p' l r r' Q -> E. destruct (app_eq_app _ _ _ _ E) as (l2 & [[E1 E2]|[E1 E2]]).
    - destruct (app_eq_app _ _ _ _ E2) as (l3 & [[E3 E4]|[E3 E4]]).
      + destruct (So l l2 l3 E1 E3) as [H|H]; auto. subst l2. rewrite app_nil_r in E1. subst l. destruct Q. exists p, []. rewrite app_nil_r. auto.
      + assert (L : length sep = length (l ++ sep ++ l3)) by (rewrite E1 at 1; rewrite E3; auto). rewrite !app_length in L. destruct l; auto. cbn in L. lia.
    - subst l. destruct Q. exists p, l2. rewrite <- ?app_assoc. auto. }
  intros Q Q' E. destruct (app_eq_app _ _ _ _ E) as (l & [[E1 E2]|[E1 E2]]).
  - assert (l = []) as -> by (apply (W p' p l r' r); auto). rewrite app_nil_r in E1. split; auto. rewrite app_nil_l in E2. apply app_inv_head in E2. auto.
  - assert (l = []) as -> by (apply (W p p' l r r'); auto). rewrite app_nil_r in E1. split; auto. rewrite app_nil_l in E2. apply app_inv_head in E2. auto.
Qed.
Lemma fields_unique sep s l l' : solid sep -> fields sep s l -> fields sep s l' -> l = l'.
Proof.
  intros So (N & -> & F) (N' & E & F'). revert l' N' E F'. induction F as [|p l Hp F IH]; [congruence|]. intros [|p' l'] N' E F'; [congruence|].
  inversion F' as [|? ? Hp' F2]; subst. destruct l as [|q l], l' as [|q' l'].
  - cbn in E. congruence.
  - cbn [join] in E. destruct Hp. exists p', (join sep (q' :: l')). exact E.
  - cbn [join] in E. destruct Hp'. exists p, (join sep (q :: l)). symmetry. exact E.
  - change (p ++ sep ++ join sep (q :: l) = p' ++ sep ++ join sep (q' :: l')) in E. destruct (solid_cut _ _ _ _ _ So Hp Hp' E) as [-> E2]. f_equal. apply IH; auto; discriminate.
Qed.
Lemma comma_solid c : solid [c].
Proof. split; [discriminate|]. intros [|a la] b c' E _; auto. destruct la; [|destruct la; discriminate]. destruct b; auto. discriminate. Qed.
Lemma paren_solid : solid (lit "),(").
Proof.
  change (lit "),(") with [41; 44; 40]. split; [discriminate|]. intros a b c E1 E2. destruct a as [|a1 a]; auto. right. destruct b as [|b1 b]; auto. exfalso.
  cbn [app] in E1, E2. assert (b1 = 41) as -> by congruence. destruct a as [|a2 a]; [cbn [app] in E1; congruence|]. cbn [app] in E1. destruct a as [|a3 a]; [cbn [app] in E1; congruence|].
  cbn [app] in E1. destruct a; cbn [app] in E1; congruence.
Qed.
Lemma bare_unique s t t' : bare s t -> bare s t' -> t = t'.
Proof.
  assert (G : forall s t, bare s t -> t = strip s).
  { clear. intros s t (a & b & -> & A & B & H1 & H2). destruct t as [|c t].
    - cbn. assert (Bl : blank (a ++ b)) by (apply Forall_app; auto). generalize (a ++ b) Bl. clear. intros l Bl. unfold strip. rewrite <- (app_nil_r l), lstrip_app; auto. exact Logic.I.
    - symmetry. apply strip_app; auto; [eapply H1; eauto| |discriminate]. destruct (exists_last (l := c :: t)) as (l & x & E); [discriminate|]. rewrite E in *. rewrite rev_app_distr. cbn. eapply H2; eauto. }
  intros H H'. rewrite (G _ _ H), (G _ _ H'). auto.
Qed.
Lemma without_unique line s s' : without_clac line s -> without_clac line s' -> s = s'.
Proof.
  assert (SW : starts_with (lit "+CLAC") (lit "+CLAC")) by (exists []; rewrite app_nil_r; auto).
  intros [[N ->]|[[-> ->]|[c ->]]] [[N' E]|[[E ->]|[c' E]]]; subst; auto; try contradiction; try discriminate.
  - exfalso. apply N. eexists. reflexivity.
  - exfalso. apply N'. eexists. reflexivity.
  - apply app_inv_head in E. congruence.
Qed.
Lemma listed_unique ls l l' : listed ls l -> listed ls l' -> l = l'.
Proof.
  intros H H'. inversion H as [line final s l0 W F|l1 l2 b final l0 F]; subst; inversion H' as [line' final' s' l0' W' F'|l1' l2' b' final' l0' F']; subst.
  - rewrite (without_unique _ _ _ W' W) in *. eapply fields_unique; [apply comma_solid|eauto|eauto].
  - destruct b'; discriminate.
  - destruct b; discriminate.
  - match goal with X : ?a ++ [_] = ?b ++ [_] |- _ => apply app_inj_tail in X as [-> _] end. clear - F F'. revert l' F'. induction F; intros l0' F'; inversion F'; subst; f_equal; auto. eapply bare_unique; eauto.
Qed.
