From Verif Require Import Base RegexModel RegexProofs TrieProofs UtilProofs SerialProofs ModemCore ModemSpec.

(** ** Decimal texts *)
Lemma digit_range c : is_digit c = true <-> 48 <= c <= 57.
Proof. unfold is_digit. rewrite andb_true_iff, !Z.leb_le. tauto. Qed.
Lemma digit_not_space c : is_digit c = true -> is_space c = false.
Proof.
  intro H. apply digit_range in H. unfold is_space.
  repeat match goal with |- context [?a <=? ?b] => destruct (Z.leb_spec a b); try lia end; auto.
Qed.
Lemma int_digits_value ds : Forall (fun c => is_digit c = true) ds -> forall acc,
  int_digits 10 acc ds = Some (fold_left (fun a c => 10 * a + (c - 48)) ds acc).
Proof.
  induction 1 as [|c ds Hc _ IH]; intro acc; cbn [int_digits fold_left]; auto.
  apply digit_range in Hc. unfold hexval. rewrite (proj2 (Z.leb_le 48 c)), (proj2 (Z.leb_le c 57)) by lia. cbn [andb].
  rewrite (proj2 (Z.ltb_lt (c - 48) 10)) by lia. rewrite IH. f_equal. f_equal. lia.
Qed.
Lemma lstrip_digit c s : is_digit c = true -> lstrip (c :: s) = c :: s.
Proof. intro H. cbn. rewrite digit_not_space; auto. Qed.
Lemma strip_digits ds : digits ds -> strip ds = ds.
Proof.
  intros [N F]. unfold strip. destruct ds as [|c ds]; [congruence|]. inversion F; subst. rewrite lstrip_digit by auto.
  assert (F' : Forall (fun c => is_digit c = true) (rev (c :: ds))) by (apply Forall_rev; auto).
  destruct (rev (c :: ds)) as [|d r] eqn:E; [apply (f_equal (@length Z)) in E; rewrite rev_length in E; discriminate|].
  inversion F'; subst. rewrite lstrip_digit by auto. rewrite <- E. apply rev_involutive.
Qed.
Lemma py_int_digits ds : digits ds -> py_int 10 ds = Ok (dec_value ds).
Proof.
  intro D. pose proof D as [N F]. unfold py_int. rewrite strip_digits by auto.
  assert (B : match ds with [] => Err ValueError | _ => match int_digits 10 0 ds with Some v => Ok v | None => Err ValueError end end
    = Ok (dec_value ds)).
  { destruct ds; [congruence|]. rewrite int_digits_value by auto. auto. }
  destruct ds as [|c ds]; [congruence|]. inversion F as [|? ? Hc _]; subst. apply digit_range in Hc.
  destruct c as [|p|p]; auto; try lia. do 6 (destruct p as [p|p|]; auto; try lia).
Qed.

(** ** Inverting and building regular expression matches *)
Ltac lang_inv H :=
  repeat match goal with
  | H : lang (_ ;; _) _ _ _ |- _ => cbn [lang] in H; destruct H as (?t & ?t & ?g & ?g & ? & ? & H & ?)
  end.

Lemma contains_iff s p : contains s p = true <-> substring p s.
Proof.
  induction s as [|c s IH]; cbn [contains].
  - rewrite orb_false_r, startswith_app. split.
    + intros [r E]. exists [], r. auto.
    + intros (a & b & E). destruct a; [eauto|discriminate].
  - rewrite orb_true_iff, startswith_app, IH. split.
    + intros [[r E]|(a & b & E)]; [exists [], r; auto|]. exists (c :: a), b. rewrite E. auto.
    + intros ([|x a] & b & E); [left; eauto|]. right. injection E as -> E. exists a, b. auto.
Qed.

(** CM_ERROR_REGEX *)
Lemma cm_lang t g rest : lang CM_ERROR_REGEX t g rest <->
  exists kind ds, (kind = 69 \/ kind = 83) /\ digits ds /\ line_end rest /\ t = lit "+CM" ++ [kind] ++ lit " ERROR: " ++ ds /\
    g = [lit "CM" ++ [kind]; ds].
Proof.
  unfold CM_ERROR_REGEX, plus. cbn [lang]. split.
  - intros (t1 & t2 & g1 & g2 & -> & -> & [-> ->] & t3 & t4 & g3 & g4 & -> & -> & (g5 & -> & t5 & t6 & g6 & g7 & -> & -> & [-> ->] & c & -> & Hc & ->) &
      t7 & t8 & g8 & g9 & -> & -> & [-> ->] & t9 & t10 & g10 & g11 & -> & -> & (g12 & -> & F & L & _ & ->) & -> & -> & E).
    exists c, t9. apply orb_true_iff in Hc. rewrite !Z.eqb_eq in Hc. split; auto. split; [split; auto; destruct t9; cbn in L; [lia|congruence]|].
    split; auto. cbn. rewrite app_nil_r. auto.
  - intros (kind & ds & K & [N F] & E & -> & ->).
    exists (lit "+"), (lit "CM" ++ [kind] ++ lit " ERROR: " ++ ds), [], [lit "CM" ++ [kind]; ds]. repeat split; auto.
    exists (lit "CM" ++ [kind]), (lit " ERROR: " ++ ds), [lit "CM" ++ [kind]], [ds]. repeat split; auto.
    + exists []. split; auto. exists (lit "CM"), [kind], [], []. repeat split; auto. exists kind. repeat split; auto.
      destruct K as [->| ->]; auto.
    + exists (lit " ERROR: "), ds, [], [ds]. repeat split; auto. exists ds, [], [ds], []. rewrite app_nil_r. repeat split; auto.
      exists []. repeat split; auto. destruct ds; [congruence|cbn; lia].
Qed.
Lemma digits_end_unique ds1 nl1 ds2 nl2 : digits ds1 -> digits ds2 -> line_end nl1 -> line_end nl2 -> ds1 ++ nl1 = ds2 ++ nl2 -> ds1 = ds2 /\ nl1 = nl2.
Proof.
  intros [_ F1] [_ F2] L1 L2 E. assert (O : forall nl, line_end nl -> starts_outside is_digit nl) by (intros nl [->| ->]; cbn; auto).
  apply (span_unique is_digit ds1 ds2 nl1 nl2); auto.
Qed.
Lemma cm_match kind ds nl : (kind = 69 \/ kind = 83) -> digits ds -> line_end nl ->
  re_match CM_ERROR_REGEX (lit "+CM" ++ [kind] ++ lit " ERROR: " ++ ds ++ nl) = Some (lit "+CM" ++ [kind] ++ lit " ERROR: " ++ ds, [lit "CM" ++ [kind]; ds], nl).
Proof.
  intros K D E. apply re_match_unique; [rewrite <- !app_assoc; auto|apply cm_lang; exists kind, ds; repeat split; auto; apply D|].
  intros t' g' rest' Es L. apply cm_lang in L as (k' & d' & K' & D' & E' & -> & ->). rewrite <- !app_assoc in Es. cbn [lit] in Es.
  injection Es as <- Es. destruct (digits_end_unique _ _ _ _ D D' E E' Es) as [-> ->]. auto.
Qed.
Lemma cm_nomatch line : (forall kind code, ~ cm_error kind code line) -> re_match CM_ERROR_REGEX line = None.
Proof.
  intro H. apply re_match_none. intros t g rest -> L. apply cm_lang in L as (k & d & K & D & E & -> & ->).
  apply (H k (dec_value d)). split; auto. exists d, rest. rewrite <- !app_assoc. auto.
Qed.
Lemma cm_unique k1 c1 k2 c2 line : cm_error k1 c1 line -> cm_error k2 c2 line -> k1 = k2 /\ c1 = c2.
Proof.
  intros (_ & d1 & n1 & -> & D1 & N1 & ->) (_ & d2 & n2 & E & D2 & N2 & ->). cbn in E. injection E as -> E.
  destruct (digits_end_unique _ _ _ _ D1 D2 N1 N2 E) as [-> _]. auto.
Qed.
Lemma cm_is_error kind code line : cm_error kind code line -> error_line line.
Proof.
  intros (_ & ds & nl & -> & _). exists (lit "+CM" ++ [kind] ++ lit " "), (lit ": " ++ ds ++ nl). cbn. auto.
Qed.
Lemma cm_dec line : (exists kind code, cm_error kind code line) \/ (forall kind code, ~ cm_error kind code line).
Proof.
  destruct (re_match CM_ERROR_REGEX line) as [[[t g] rest]|] eqn:E.
  - left. apply re_match_some in E as [-> L]. apply cm_lang in L as (k & d & K & D & E & -> & ->).
    exists k, (dec_value d). split; auto. exists d, rest. rewrite <- !app_assoc. auto.
  - right. intros kind code (K & ds & nl & -> & D & N & _). rewrite cm_match in E by auto. discriminate.
Qed.

(** ** The ruling on a status line *)
Lemma busy_code_spec c : (c =? 515) || (c =? 14) = true <-> busy_code c.
Proof. rewrite orb_true_iff, !Z.eqb_eq. unfold busy_code. tauto. Qed.

Lemma judge_code data kind code line : cm_error kind code line ->
  (busy_code code -> judge data line = VBusy code) /\
  (~ busy_code code -> exists e, exception_for data kind code e /\ judge data line = VRaise e).
Proof.
  intro C. pose proof (cm_is_error _ _ _ C) as Er. apply contains_iff in Er. unfold judge. rewrite Er.
  destruct C as (K & ds & nl & -> & D & N & ->). rewrite cm_match by auto. unfold group. cbn [groups fst snd nth Nat.sub].
  rewrite py_int_digits by auto. split.
  - intro B. apply busy_code_spec in B. rewrite B. auto.
  - intro B. destruct ((dec_value ds =? 515) || (dec_value ds =? 14)) eqn:Eb; [apply busy_code_spec in Eb; tauto|].
    destruct K as [->| ->].
    + change (str_eqb (lit "CM" ++ [69]) (lit "CME")) with true. unfold mk_CmeError.
      destruct (Z.eqb_spec (dec_value ds) 11) as [->|]; [eexists; split; [constructor|auto]|].
      destruct (Z.eqb_spec (dec_value ds) 16) as [->|]; [eexists; split; [constructor|auto]|].
      destruct (Z.eqb_spec (dec_value ds) 12) as [->|]; eexists; (split; [constructor; auto|auto]).
    + change (str_eqb (lit "CM" ++ [83]) (lit "CME")) with false. unfold mk_CmsError.
      destruct (Z.eqb_spec (dec_value ds) 330) as [->|]; eexists; (split; [constructor; auto|auto]).
Qed.
Lemma judge_plain data line : error_line line -> (forall kind code, ~ cm_error kind code line) -> judge data line = VRaise (CommandError (Some data)).
Proof. intros E C. unfold judge. apply contains_iff in E. rewrite E, cm_nomatch by auto. auto. Qed.
Lemma judge_good data line : good_line line -> judge data line = VAccept.
Proof.
  intros [E N]. unfold judge. destruct (contains line (lit "ERROR")) eqn:C; [apply contains_iff in C; tauto|].
  destruct (str_eqb line (lit "COMMAND NOT SUPPORT")) eqn:S; auto. apply str_eqb_true in S. exfalso. auto.
Qed.
Lemma judge_unsupported data : judge data (lit "COMMAND NOT SUPPORT") = VRaise (CommandError (Some (data ++ lit "(COMMAND NOT SUPPORT)"))).
Proof. reflexivity. Qed.
Lemma error_dec line : error_line line \/ ~ error_line line.
Proof. destruct (contains line (lit "ERROR")) eqn:C; [left; apply contains_iff; auto|right; intro H; apply contains_iff in H; congruence]. Qed.
Lemma good_dec line : good_line line \/ error_line line \/ not_supported line.
Proof.
  destruct (error_dec line) as [E|E]; auto. destruct (str_eqb line (lit "COMMAND NOT SUPPORT")) eqn:S.
  - apply str_eqb_true in S. auto.
  - left. split; auto. intro N. apply str_eqb_true in N. congruence.
Qed.

(** every reply is either busy or has an outcome; outcomes are unique *)
Lemma reply_cases data r : (exists code, busy_reply code r) \/ (not_busy r /\ exists x, outcome data r x).
Proof.
  destruct r as [ls|ls].
  - destruct ls as [|line ls] using rev_ind.
    { right. split; [|eexists; constructor]. intros c (_ & l & x & k & E & _). injection E as E. destruct l; discriminate. }
    clear IHls. destruct (cm_dec line) as [(k & c & C)|C].
    + destruct ((c =? 515) || (c =? 14)) eqn:B.
      * left. exists c. apply busy_code_spec in B. split; auto. exists ls, line, k. auto.
      * right. assert (~ busy_code c) by (rewrite <- busy_code_spec; congruence). split.
        { intros c' (Bc & l' & line' & k' & E & C'). injection E as E. apply app_inj_tail in E as [-> ->].
          destruct (cm_unique _ _ _ _ _ C C') as [-> ->]. auto. }
        destruct (proj2 (judge_code data _ _ _ C) H) as (e & X & _). exists (Err e). econstructor; eauto.
    + right. split.
      { intros c' (Bc & l' & line' & k' & E & C'). injection E as E. apply app_inj_tail in E as [-> ->]. eapply C; eauto. }
      destruct (good_dec line) as [G|[E|N]]; [exists (Ok (ls ++ [line])); constructor; auto|eexists; apply oc_error; auto|].
      red in N. subst. eexists. apply oc_unsupported.
  - right. split; [intros c (_ & l & x & k & E & _); discriminate|]. destruct ls; eexists; constructor.
Qed.

(** ** One attempt *)
Definition settled (m : modem) (tr : list event) (r : reply) (text : str) : list event :=
  tr ++ EWrite text (Some r) :: match r with Lines _ => pause (writeWait m) | NoReply _ => [] end.
Lemma paused_eq wait tr : paused wait tr = tr ++ pause wait.
Proof. unfold paused, pause. destruct (0 <? wait); auto. rewrite app_nil_r. auto. Qed.

Lemma not_supported_good line : error_line line -> good_line line -> False.
Proof. intros E [H _]. auto. Qed.

Lemma write_outcome data term r sc m tr x : not_busy r -> outcome data r x ->
  write_on (r :: sc) m tr data term true = Done x (mk_world m sc (settled m tr r (data ++ term))).
Proof.
  intros NB O. unfold settled. destruct O; cbn [write_on]; try reflexivity.
  - cbn [rev]. rewrite paused_eq, <- app_assoc. reflexivity.
  - rewrite rev_app_distr. cbn [rev app]. rewrite judge_good by auto. rewrite paused_eq, <- app_assoc. reflexivity.
  - rewrite rev_app_distr. cbn [rev app]. destruct (judge_code data _ _ _ H) as [_ J]. destruct (J H0) as (e' & X & ->).
    assert (e' = e) as -> by (destruct H1; inversion X; subst; congruence). rewrite paused_eq, <- app_assoc. reflexivity.
  - rewrite rev_app_distr. cbn [rev app]. rewrite judge_plain by auto. rewrite paused_eq, <- app_assoc. reflexivity.
  - rewrite rev_app_distr. cbn [rev app]. rewrite judge_unsupported. rewrite paused_eq, <- app_assoc. reflexivity.
Qed.
Lemma write_busy data term r sc m tr code : busy_reply code r ->
  write_on (r :: sc) m tr data term true =
  match write_on sc (set_writeWait (writeWait m + 2) m)
          (tr ++ EWrite (data ++ term) (Some r) :: pause (writeWait m) ++ [ESleep (writeWait m + 2)]) data term true with
  | Done (Ok result) w => Done (Ok result) (mk_world (set_writeWait (if code =? 515 then 1 else 0) (dev w)) (script w) (trace w))
  | o => o
  end.
Proof.
  intros (B & ls & line & kind & -> & C). cbn [write_on]. rewrite rev_app_distr. cbn [rev app].
  rewrite (proj1 (judge_code data _ _ _ C) B). rewrite paused_eq. cbv zeta. cbn [writeWait set_writeWait].
  replace (((tr ++ [EWrite (data ++ term) (Some (Lines (ls ++ [line])))]) ++ pause (writeWait m)) ++ [ESleep (writeWait m + 2)])
    with (tr ++ EWrite (data ++ term) (Some (Lines (ls ++ [line]))) :: pause (writeWait m) ++ [ESleep (writeWait m + 2)])
    by (rewrite <- !app_assoc; reflexivity).
  reflexivity.
Qed.

(** ** Any number of busy replies *)
Definition wait_after (x : res (list str)) (wait : Z) (codes : list Z) : Z :=
  match x, codes with
  | _, [] => wait
  | Ok _, c :: _ => if c =? 515 then 1 else 0
  | Err _, _ => wait + 2 * Z.of_nat (length codes)
  end.
Lemma set_wait_twice a b m : set_writeWait a (set_writeWait b m) = set_writeWait a m. Proof. reflexivity. Qed.
Lemma set_wait_same m : set_writeWait (writeWait m) m = m. Proof. destruct m; reflexivity. Qed.

Lemma write_retries data term busy codes : all_busy busy codes -> forall r x m sc tr, not_busy r -> outcome data r x ->
  write_on (busy ++ r :: sc) m tr data term true =
  Done x (mk_world (set_writeWait (wait_after x (writeWait m) codes) m) sc (tr ++ attempts (data ++ term) (writeWait m) busy r)).
Proof.
  induction 1 as [|b c busy codes B _ IH]; intros r x m sc tr NB O.
  - cbn [app attempts]. rewrite (write_outcome _ _ _ _ _ _ x) by auto. unfold settled, wait_after.
    assert (E : set_writeWait (writeWait m) m = m) by apply set_wait_same. destruct x; rewrite E; auto.
  - cbn [app]. rewrite (write_busy _ _ _ _ _ _ c) by auto. rewrite (IH r x) by auto. cbn [attempts writeWait set_writeWait].
    assert (T : (tr ++ EWrite (data ++ term) (Some b) :: pause (writeWait m) ++ [ESleep (writeWait m + 2)]) ++ attempts (data ++ term) (writeWait m + 2) busy r
      = tr ++ EWrite (data ++ term) (Some b) :: pause (writeWait m) ++ ESleep (writeWait m + 2) :: attempts (data ++ term) (writeWait m + 2) busy r)
      by (rewrite <- !app_assoc; cbn; rewrite <- app_assoc; auto).
    change (writeWait (set_writeWait (writeWait m + 2) m)) with (writeWait m + 2).
    rewrite T. destruct x as [a|e].
    + cbn [dev script trace]. rewrite set_wait_twice. reflexivity.
    + rewrite set_wait_twice. destruct codes as [|c' codes].
      * reflexivity.
      * unfold wait_after. do 3 f_equal. cbn [length]. lia.
Qed.
Lemma write_stuck data term busy codes : all_busy busy codes -> forall m tr,
  exists w, write_on busy m tr data term true = Stuck w /\ script w = [].
Proof.
  induction 1 as [|b c busy codes B _ IH]; intros m tr; [cbn; eauto|].
  rewrite (write_busy _ _ _ _ _ _ c) by auto.
  destruct (IH (set_writeWait (writeWait m + 2) m) (tr ++ EWrite (data ++ term) (Some b) :: pause (writeWait m) ++ [ESleep (writeWait m + 2)])) as (w & -> & E). eauto.
Qed.

(** every script starts with busy replies, and then ends or goes on with another *)
Lemma script_split sc : exists busy codes, all_busy busy codes /\ (sc = busy \/ exists r rest, sc = busy ++ r :: rest /\ not_busy r).
Proof.
  induction sc as [|r sc (busy & codes & B & H)]; [exists [], []; split; [constructor|auto]|].
  destruct (reply_cases [] r) as [(c & Hc)|[NB _]].
  - exists (r :: busy), (c :: codes). split; [constructor; auto|]. destruct H as [->|(r' & rest & -> & NB)]; [auto|]. right. exists r', rest. auto.
  - exists [], []. split; [constructor|]. right. exists r, sc. auto.
Qed.

(** What a command does, for every script. *)
Lemma write_any data term w :
  (exists busy codes r rest x, script w = busy ++ r :: rest /\ all_busy busy codes /\ not_busy r /\ outcome data r x /\
     write_with data term true w =
       Done x (mk_world (set_writeWait (wait_after x (writeWait (dev w)) codes) (dev w)) rest (trace w ++ attempts (data ++ term) (writeWait (dev w)) busy r)))
  \/ (exists busy codes w', script w = busy /\ all_busy busy codes /\ write_with data term true w = Stuck w').
Proof.
  destruct (script_split (script w)) as (busy & codes & B & [E|(r & rest & E & NB)]).
  - right. destruct (write_stuck data term busy codes B (dev w) (trace w)) as (w' & S & _). exists busy, codes, w'. unfold write_with. rewrite E. auto.
  - left. destruct (reply_cases data r) as [(c & Hc)|[_ (x & O)]]; [exfalso; eapply NB; eauto|].
    exists busy, codes, r, rest, x. repeat split; auto. unfold write_with. rewrite E. apply write_retries; auto.
Qed.

(** ** With parseError=False *)
Lemma write_noparse_any data term w :
  match script w with
  | [] => write_with data term false w = Stuck w
  | r :: rest => exists x, write_with data term false w = Done x (mk_world (dev w) rest (settled (dev w) (trace w) r (data ++ term))) /\
      match r, x with
      | Lines [], Err e => e = IndexError
      | Lines (l :: ls), Ok ls' => ls' = l :: ls
      | NoReply ls, Err e => exists d, e = TimeoutException d
      | _, _ => False
      end
  end.
Proof.
  destruct w as [m sc tr]. cbn [script dev trace]. unfold write_with, settled. cbn [script dev trace].
  destruct sc as [|[ls|ls] sc]; cbn [write_on]; auto.
  - rewrite paused_eq, <- app_assoc. destruct ls as [|line ls _] using rev_ind; [eexists; split; [reflexivity|cbn; auto]|].
    rewrite rev_app_distr. cbn [rev app]. exists (Ok (ls ++ [line])). split; [reflexivity|destruct ls; cbn; auto].
  - destruct ls as [|l ls]; eexists; (split; [reflexivity|cbn; eauto]).
Qed.

Lemma writes_of_app a b : writes_of (a ++ b) = writes_of a ++ writes_of b.
Proof. apply flat_map_app. Qed.
Lemma writes_pause wait : writes_of (pause wait) = [].
Proof. unfold pause. destruct (0 <? wait); auto. Qed.
Lemma attempts_writes text busy r : forall wait, writes_of (attempts text wait busy r) = repeat text (S (length busy)).
Proof.
  induction busy as [|b busy IH]; intro wait; cbn [attempts].
  - cbn. f_equal. destruct r; [apply writes_pause|auto].
  - cbn. fold (writes_of (pause wait ++ ESleep (wait + 2) :: attempts text (wait + 2) busy r)).
    rewrite writes_of_app, writes_pause. cbn. fold (writes_of (attempts text (wait + 2) busy r)). rewrite IH. auto.
Qed.

(** ** str() of an integer *)
Lemma dec_value_app a b : dec_value (a ++ b) = fold_left (fun x c => 10 * x + (c - 48)) b (dec_value a).
Proof. unfold dec_value. apply fold_left_app. Qed.
Lemma dec_digits_spec fuel : forall n, 0 <= n < 10 ^ Z.of_nat fuel -> (0 < fuel)%nat ->
  digits (dec_digits fuel n) /\ dec_value (dec_digits fuel n) = n /\ (0 < n -> forall ds', dec_digits fuel n <> 48 :: ds').
Proof.
  induction fuel as [|fuel IH]; intros n H Hf; [lia|]. cbn [dec_digits].
  assert (S1 : forall c, 48 <= c <= 57 -> Forall (fun c => is_digit c = true) [c]) by (intros; constructor; [apply digit_range; auto|auto]).
  destruct (Z.ltb_spec n 10) as [L|L].
  - split; [split; [discriminate|apply S1; lia]|]. split; [cbn; lia|]. intros P ds' [= E]. lia.
  - assert (0 < fuel)%nat. { destruct fuel; [cbn in H; lia|lia]. }
    assert (P10 : 10 ^ Z.of_nat (S fuel) = 10 * 10 ^ Z.of_nat fuel) by (rewrite Nat2Z.inj_succ, Z.pow_succ_r; lia).
    pose proof (Z.div_mod n 10 ltac:(lia)). pose proof (Z.mod_pos_bound n 10 ltac:(lia)).
    destruct (IH (n / 10)) as ([N F] & V & Z0); [lia|auto|]. split; [split|split].
    + destruct (dec_digits fuel (n / 10)); discriminate.
    + apply Forall_app. split; auto. apply S1. lia.
    + rewrite dec_value_app, V. cbn. lia.
    + intros _ ds' E. destruct (dec_digits fuel (n / 10)) as [|c ds] eqn:D; [congruence|]. injection E as -> E.
      apply (Z0 ltac:(lia) ds). auto.
Qed.
Lemma str_of_Z_decimal n : 0 <= n -> decimal n (str_of_Z n).
Proof.
  intro H. unfold str_of_Z. destruct (Z.ltb_spec n 0); [lia|].
  destruct (dec_digits_spec (S (Z.to_nat (Z.log2 n))) n) as (D & V & Z0).
  - split; auto. rewrite Nat2Z.inj_succ, Z2Nat.id by apply Z.log2_nonneg.
    destruct (Z.eq_dec n 0) as [->|N]; [cbn; lia|]. apply Z.lt_le_trans with (2 ^ Z.succ (Z.log2 n)).
    + apply Z.log2_spec. lia.
    + apply Z.pow_le_mono_l. lia.
  - lia.
  - split; auto. split; auto. destruct (Z.eq_dec n 0) as [->|N]; [left; reflexivity|right; apply Z0; lia].
Qed.
