(** Executions in which an answer contains a text that looks like an answer. *)
From Verif Require Import Base RegexModel RegexProofs SerialModel SerialSpec SerialProofs ThreadProofs SerialFinal SpoofSpec.

(** ** The response to a command whose answer contains a text *)
Lemma first_final (a b a' b' : list (str * bool)) x y : a ++ x :: b = a' ++ y :: b' ->
  Forall (fun l => ~ ends_response l) a -> ends_response x -> Forall (fun l => ~ ends_response l) a' -> ends_response y -> a = a' /\ x = y.
Proof.
  revert a'. induction a as [|z a IH]; intros [|z' a'] E Fa Fx Fa' Fy; cbn in E; injection E as E1 E2; subst; auto.
  - exfalso. inversion Fa'. auto.
  - exfalso. inversion Fa. auto.
  - inversion Fa; inversion Fa'; subst. edestruct IH as [-> ->]; eauto.
Qed.
Definition checked (l : str) : str * bool := (l, true).
Lemma checked_ends l : ends_response (checked l) <-> final_line l.
Proof. unfold ends_response, checked. cbn. split; [intros [?|?]; [discriminate|auto]|auto]. Qed.
Lemma checked_none ls : Forall (fun l => ~ final_line l) ls -> Forall (fun l => ~ ends_response l) (map checked ls).
Proof. induction 1; cbn; constructor; auto. rewrite checked_ends. auto. Qed.
Lemma checked_fst ls : map fst (map checked ls) = ls.
Proof. rewrite map_map. cbn. apply map_id. Qed.
Lemma ok_final : final_line (lit "OK").
Proof. left. exists []. reflexivity. Qed.
Lemma final_split ls : Forall (fun l => ~ final_line l) ls \/ exists a f b, ls = a ++ f :: b /\ Forall (fun l => ~ final_line l) a /\ final_line f.
Proof.
  induction ls as [|l ls IH]; auto. destruct (is_term l) eqn:E.
  - apply is_term_spec in E. right. exists [], l, ls. auto.
  - assert (N : ~ final_line l) by (rewrite <- is_term_spec; congruence). destruct IH as [F|(a & f & b & -> & F & T)]; [left; auto|].
    right. exists (l :: a), f, b. auto.
Qed.
Lemma cut_off_some lines : exists before last, cut_off lines before last.
Proof.
  destruct (final_split lines) as [F|(a & f & b & -> & F & T)]; [exists lines, (lit "OK"); constructor; auto|].
  exists a, f. constructor; auto.
Qed.
Lemma response_cut tr s tr0 i mid ls tr2 h body rest : run s_init tr s -> no_timeouts tr ->
  labels tr = tr0 ++ LStart i :: mid ++ LReturn i ls :: tr2 -> Forall not_over mid -> (forall x, ~ in_flight tr0 x) ->
  handed_of (mid ++ tr2) = map (fun l => (l, true)) (h :: body ++ lit "OK" :: rest) -> ~ final_line h ->
  forall before last, cut_off body before last -> ls = h :: before ++ [last].
Proof.
  intros R NT E F NF H Nh before last C. destruct (response_exact tr s tr0 i mid ls tr2 R NT E F NF) as (pre & fin & more & E1 & Fp & Ff & ->).
  assert (X : exists tail, h :: body ++ lit "OK" :: rest = (h :: before) ++ last :: tail /\ Forall (fun l => ~ final_line l) (h :: before) /\ final_line last).
  { destruct C as [lines Fl|before last after Fb Fl].
    - exists rest. cbn. split; auto. split; [constructor; auto|apply ok_final].
    - exists (after ++ lit "OK" :: rest). cbn [app]. rewrite <- app_assoc. cbn. auto. }
  destruct X as (tail & X & Fb & Fl). rewrite X in H. unfold handed_of in H. rewrite flat_map_app in H. fold (handed_of mid) in H. fold (handed_of tr2) in H.
  change (fun l : str => (l, true)) with checked in H. rewrite E1, map_app in H. cbn [map] in H. rewrite <- app_assoc in H. cbn [app] in H.
  change (checked h :: map checked before ++ checked last :: map checked tail) with (map checked (h :: before) ++ checked last :: map checked tail) in H.
  apply first_final in H as [-> ->]; auto.
  - rewrite map_app. rewrite checked_fst. reflexivity.
  - apply checked_none. auto.
  - apply checked_ends. auto.
Qed.

(** ** Executions step by step *)
Definition no_prompts (tr : list (action * label)) : Prop := forall i w l, In (AWrite i w, l) tr -> w_expected (in_op w) = None.
Definition goes (s : sstate) (ls : list label) (s' : sstate) : Prop :=
  exists tr, run s tr s' /\ (no_timeouts tr /\ no_prompts tr) /\ filter outside (labels tr) = ls.
Lemma run_join s tr1 m : run s tr1 m -> forall tr2 s', run m tr2 s' -> run s (tr1 ++ tr2) s'.
Proof.
  intros R tr2 s' R2. induction R2 as [|m tr2 k a l k' R2 IH A]; [rewrite app_nil_r; auto|].
  rewrite app_assoc. econstructor; eauto.
Qed.
Lemma goes_nil s : goes s [] s.
Proof. exists []. split; [constructor|]. split; auto. split; intros i w l []. Qed.
Lemma goes_trans s ls1 m ls2 s' : goes s ls1 m -> goes m ls2 s' -> goes s (ls1 ++ ls2) s'.
Proof.
  intros (t1 & R1 & [N1 P1] & E1) (t2 & R2 & [N2 P2] & E2). exists (t1 ++ t2). split; [eapply run_join; eauto|]. split.
  - split; intros i w l I; apply in_app_iff in I as [I|I]; eauto.
  - unfold labels. rewrite map_app, filter_app. fold (labels t1) (labels t2). congruence.
Qed.
Lemma goes_read s i l s' : read_step s i = Some (s', l) -> goes s (filter outside [l]) s'.
Proof.
  intro A. exists [(ARead i, l)]. split; [apply (run_snoc s [] s (ARead i) l s'); [constructor|exact A]|]. split; auto.
  split; intros j w k [I|[]]; discriminate.
Qed.
Lemma goes_write s i op l s' : w_expected op = None -> write_step s i (mk_win op false) = Some (s', l) -> goes s (filter outside [l]) s'.
Proof.
  intros X A. exists [(AWrite i (mk_win op false), l)]. split; [apply (run_snoc s [] s (AWrite i (mk_win op false)) l s'); [constructor|exact A]|]. split; auto.
  split; intros j w k [I|[]]; injection I as <- <- <-; auto.
Qed.
(** a step of the read thread that is not seen from outside, and then others *)
Lemma then_read s i l m ls s' : read_step s i = Some (m, l) -> goes m ls s' -> goes s (filter outside [l] ++ ls) s'.
Proof. intros A G. eapply goes_trans; [eapply goes_read; eauto|auto]. Qed.
Lemma then_write s i op l m ls s' : w_expected op = None -> write_step s i (mk_win op false) = Some (m, l) -> goes m ls s' -> goes s (filter outside [l] ++ ls) s'.
Proof. intros X A G. eapply goes_trans; [eapply goes_write; eauto|auto]. Qed.

Definition someone : rin := mk_rin None false.
Definition the_last : rin := mk_rin None true.

(** a line without CRLF is read, up to the call of _handleLineRead *)
Lemma not_complete l p c q : no_crlf l -> l = p ++ c :: q -> ends_with (p ++ [c]) RX_EOL_SEQ = false.
Proof.
  intros N ->. apply ends_with_false. intros [a E]. apply N. exists a, q. change crlf with RX_EOL_SEQ. rewrite app_assoc, <- E, <- app_assoc. reflexivity.
Qed.
Lemma cr_not_complete l : ends_with (l ++ [13]) RX_EOL_SEQ = false.
Proof. apply ends_with_false. intros [a E]. change RX_EOL_SEQ with ([13] ++ [10]) in E. rewrite app_assoc in E. apply app_inj_tail in E as [_ E]. discriminate. Qed.
Lemma set_reader_twice s a b : set_reader (set_reader s a) b = set_reader s b. Proof. reflexivity. Qed.
Lemma one_char s p c : expect s = None -> ends_with (p ++ [c]) RX_EOL_SEQ = false ->
  goes (set_reader s (RIdle p)) [LChar c] (set_reader s (RIdle (p ++ [c]))).
Proof.
  intros X N. change [LChar c] with (filter outside [LChar c] ++ filter outside [LTau]).
  eapply then_read with (i := mk_rin (Some c) false).
  - unfold read_step. cbn [set_reader reader in_char]. cbv zeta. rewrite N. reflexivity.
  - apply goes_read with (i := someone). unfold read_step. cbn [set_reader reader expect]. rewrite X. reflexivity.
Qed.
Lemma some_chars s l : expect s = None -> no_crlf l -> forall q p, l = p ++ q ->
  goes (set_reader s (RIdle p)) (map LChar q) (set_reader s (RIdle l)).
Proof.
  intros X N. induction q as [|c q IH]; intros p E.
  - rewrite app_nil_r in E. subst. apply goes_nil.
  - cbn [map]. change (LChar c :: map LChar q) with ([LChar c] ++ map LChar q). eapply goes_trans.
    + apply one_char; auto. eapply not_complete; eauto.
    + apply IH. rewrite <- app_assoc. auto.
Qed.
Lemma reads_line s l : reader s = RIdle [] -> expect s = None -> no_crlf l ->
  goes s (map LChar (l ++ crlf)) (match l with [] => s | _ => set_reader s (RHave l true) end).
Proof.
  intros Rd X N. assert (E : s = set_reader s (RIdle [])) by (unfold set_reader; destruct s; cbn in *; subst; reflexivity).
  rewrite map_app. rewrite E at 1. eapply goes_trans; [apply some_chars with (l := l); auto|].
  cbn [crlf map]. change [LChar 13; LChar 10] with ([LChar 13] ++ filter outside [LChar 10]).
  eapply goes_trans; [apply one_char; auto; apply cr_not_complete|].
  eapply goes_read with (i := mk_rin (Some 10) false). unfold read_step. cbn [set_reader reader in_char]. cbv zeta.
  rewrite <- app_assoc. cbn [app]. change [13; 10] with RX_EOL_SEQ.
  replace (ends_with (l ++ RX_EOL_SEQ) RX_EOL_SEQ) with true by (symmetry; apply ends_with_spec; exists l; auto).
  rewrite app_length. replace (length l + length RX_EOL_SEQ - length RX_EOL_SEQ)%nat with (length l) by lia.
  rewrite (proj1 (firstn_app_all l RX_EOL_SEQ)). destruct l; [|reflexivity]. rewrite set_reader_twice, <- E. reflexivity.
Qed.

(** ** The port between two commands, and while one waits *)
Record between (ns : list str) (s : sstate) : Prop := mk_between {
  b_lock : lock s = None; b_evt : evt s = None; b_expect : expect s = None; b_reader : reader s = RIdle [];
  b_writer : forall i, writer s i = WIdle; b_notif : notif s = ns }.
Record waits (i e r : nat) (set : bool) (acc ns : list str) (s : sstate) : Prop := mk_waits {
  a_lock : lock s = Some i; a_evt : evt s = Some e; a_set : is_set s e = set; a_expect : expect s = None; a_resp : resp s = Some r;
  a_heap : heap s r = acc; a_reader : reader s = RIdle []; a_me : writer s i = WWait e; a_writer : forall j, j <> i -> writer s j = WIdle; a_notif : notif s = ns }.

Lemma not_blank_one l : l <> [] -> not_blank [l] = [l].
Proof. destruct l; [congruence|reflexivity]. Qed.
Lemma upd_at {A} (f : nat -> A) i y : upd f i y i = y.
Proof. unfold upd. rewrite Nat.eqb_refl. auto. Qed.
Lemma upd_off {A} (f : nat -> A) i y j : j <> i -> upd f i y j = f j.
Proof. unfold upd. intro N. apply Nat.eqb_neq in N. rewrite N. auto. Qed.
Ltac fields := cbn [lock evt is_set expect resp heap fresh notif reader writer set_reader set_writer w_wait w_expected w_data in_op in_timeout in_char in_empty] in *.
Ltac writes o := eapply then_write with (op := o); [reflexivity|unfold write_step; fields; rewrite ?upd_at; fields; reflexivity|].
Ltac reads x := eapply then_read with (i := x); [unfold read_step; fields; reflexivity|].
Lemma starts ns s i data : between ns s -> exists s' e r, goes s [LSend i data true] s' /\ waits i e r false [] ns s'.
Proof.
  intros [L E X Rd W Nt]. destruct s as [lk ev se ex rp hp fr nt rd wr]. fields. subst lk ev ex rd nt.
  eexists. exists (S fr), fr. split.
  - change [LSend i data true] with (filter outside [LTau] ++ filter outside [LTau] ++ filter outside [LTau] ++ filter outside [LStart i] ++ filter outside [LSend i data true] ++ filter outside [LTau]).
    eapply then_write with (op := mk_wop data true None); [reflexivity|unfold write_step; fields; rewrite W; reflexivity|].
    do 4 writes (mk_wop data true None).
    eapply goes_write with (op := mk_wop data true None); [reflexivity|]. unfold write_step. fields. rewrite upd_at. fields. reflexivity.
  - constructor; fields; auto; try apply upd_at. intros j N. rewrite !upd_off; auto.
Qed.
Lemma gets i e r acc ns s l : waits i e r false acc ns s -> no_crlf l ->
  exists s', goes s (map LChar (l ++ crlf)) s' /\ waits i e r (is_term l) (acc ++ not_blank [l]) ns s'.
Proof.
  intros W N. pose proof W as [L E Ne X P H Rd Me Ot Nt]. pose proof (reads_line s l Rd X N) as G. destruct l as [|c l].
  - exists s. split; auto. cbn. rewrite app_nil_r. auto.
  - remember (c :: l) as line eqn:El. rewrite not_blank_one by (subst; discriminate). clear El c l W.
    destruct s as [lk ev se ex rp hp fr nt rd wr]. fields. subst lk ev ex rp rd nt.
    destruct (is_term line) eqn:T.
    + eexists. split.
      * rewrite <- (app_nil_r (map _ _)). eapply goes_trans; [exact G|].
        change (@nil label) with (filter outside [LLine line true] ++ filter outside [LTau] ++ filter outside [LTau] ++ filter outside [LAppend line true] ++ filter outside [LTau] ++ filter outside [LTau]).
        reads someone. eapply then_read with (i := someone); [unfold read_step; fields; rewrite Ne; reflexivity|]. reads someone. reads someone.
        eapply then_read with (i := someone); [unfold read_step; fields; rewrite T; reflexivity|].
        eapply goes_read with (i := someone). unfold read_step. fields. reflexivity.
      * constructor; fields; auto; rewrite upd_at, ?H; reflexivity.
    + eexists. split.
      * rewrite <- (app_nil_r (map _ _)). eapply goes_trans; [exact G|].
        change (@nil label) with (filter outside [LLine line true] ++ filter outside [LTau] ++ filter outside [LTau] ++ filter outside [LAppend line true] ++ filter outside [LTau]).
        reads someone. eapply then_read with (i := someone); [unfold read_step; fields; rewrite Ne; reflexivity|]. reads someone. reads someone.
        eapply goes_read with (i := someone). unfold read_step. fields. rewrite T. reflexivity.
      * constructor; fields; auto; rewrite upd_at, ?H; reflexivity.
Qed.
Lemma returns i e r acc ns s : waits i e r true acc ns s -> exists s', goes s [LReturn i acc] s' /\ between ns s'.
Proof.
  intros [L E Ne X P H Rd Me Ot Nt]. destruct s as [lk ev se ex rp hp fr nt rd wr]. fields. subst lk ev ex rp rd nt acc. eexists. split.
  - change [LReturn i (hp r)] with (filter outside [LTau] ++ filter outside [LTau] ++ filter outside [LTau] ++ filter outside [LReturn i (hp r)] ++ filter outside [LTau]).
    eapply then_write with (op := mk_wop [] true None); [reflexivity|unfold write_step; fields; rewrite Me, Ne; reflexivity|].
    do 3 writes (mk_wop [] true None).
    eapply goes_write with (op := mk_wop [] true None); [reflexivity|]. unfold write_step. fields. rewrite upd_at. reflexivity.
  - constructor; fields; auto. intro j. destruct (Nat.eq_dec j i) as [->|N]; [apply upd_at|]. rewrite !upd_off; auto.
Qed.
Lemma not_blank_app a b : not_blank (a ++ b) = not_blank a ++ not_blank b.
Proof. apply filter_app. Qed.
Lemma on_wire_cons l ls : on_wire (l :: ls) = (l ++ crlf) ++ on_wire ls.
Proof. reflexivity. Qed.
Lemma on_wire_app a b : on_wire (a ++ b) = on_wire a ++ on_wire b.
Proof. apply flat_map_app. Qed.
Lemma gets_all i e r ns ls : Forall no_crlf ls -> Forall (fun l => ~ final_line l) ls -> forall s acc, waits i e r false acc ns s ->
  exists s', goes s (map LChar (on_wire ls)) s' /\ waits i e r false (acc ++ not_blank ls) ns s'.
Proof.
  intros Fc Fn. revert Fc. induction Fn as [|l ls N Fn IH]; intros Fc s acc W.
  - exists s. cbn. rewrite app_nil_r. split; [apply goes_nil|auto].
  - inversion Fc; subst. destruct (gets _ _ _ _ _ _ l W) as (m & G & W'); auto.
    assert (T : is_term l = false) by (destruct (is_term l) eqn:T; auto; apply is_term_spec in T; contradiction). rewrite T in W'.
    destruct (IH H2 _ _ W') as (s' & G' & W''). exists s'. rewrite on_wire_cons, map_app. split; [eapply goes_trans; eauto|].
    change (l :: ls) with ([l] ++ ls). rewrite not_blank_app, app_assoc. auto.
Qed.
(** a command, an answer with one final line at its end, and the response *)
Lemma takes_turn ns i data ls s : plain_answer ls -> between ns s -> exists s', goes s (turn i data ls (not_blank ls)) s' /\ between ns s'.
Proof.
  intros (body & fin & -> & Fc & Fb & Ff) B. destruct (starts ns s i data B) as (s1 & e & r & G1 & W1).
  apply Forall_app in Fc as [Fc Fl]. inversion Fl; subst. destruct (gets_all i e r ns body Fc Fb s1 [] W1) as (s2 & G2 & W2).
  destruct (gets _ _ _ _ _ _ fin W2) as (s3 & G3 & W3); auto. rewrite (proj2 (is_term_spec fin) Ff) in W3.
  destruct (returns _ _ _ _ _ _ W3) as (s4 & G4 & B4). exists s4. split; auto. unfold turn. rewrite on_wire_app, map_app.
  change (LSend i data true :: ?x) with ([LSend i data true] ++ x). eapply goes_trans; [exact G1|]. rewrite <- app_assoc. eapply goes_trans; [exact G2|].
  rewrite on_wire_cons. change (on_wire []) with (@nil Z). rewrite app_nil_r. eapply goes_trans; [exact G3|]. rewrite not_blank_app. cbn [app] in G4. exact G4.
Qed.
Lemma takes_turns ns cs : Forall (fun c => plain_answer (snd c)) cs -> forall owing s, plain_answer owing -> between ns s ->
  exists s', goes s (late_turns owing cs) s' /\ between ns s'.
Proof.
  induction 1 as [|[[i data] answer] cs A _ IH]; intros owing s O B; cbn [late_turns].
  - exists s. split; [apply goes_nil|auto].
  - destruct (takes_turn ns i data owing s O B) as (m & G & B'). destruct (IH answer m A B') as (s' & G' & B''). exists s'. split; auto. eapply goes_trans; eauto.
Qed.

(** ** Lines between two commands *)
Lemma noted ns s l : between ns s -> no_crlf l -> exists s', goes s (map LChar (l ++ crlf)) s' /\ between (ns ++ not_blank [l]) s'.
Proof.
  intros B N. pose proof B as [L E X Rd W Nt]. pose proof (reads_line s l Rd X N) as G. destruct l as [|c l].
  - exists s. split; auto. cbn. rewrite app_nil_r. auto.
  - remember (c :: l) as line eqn:El. rewrite not_blank_one by (subst; discriminate). clear El c l B.
    destruct s as [lk ev se ex rp hp fr nt rd wr]. fields. subst lk ev ex rd nt. eexists. split.
    + rewrite <- (app_nil_r (map _ _)). eapply goes_trans; [exact G|].
      change (@nil label) with (filter outside [LLine line true] ++ filter outside [LNotify line] ++ filter outside [LTau]).
      reads someone. reads someone. eapply goes_read with (i := someone). unfold read_step. unfold someone. fields. reflexivity.
    + constructor; fields; auto.
Qed.
Lemma noted_all ls : Forall no_crlf ls -> forall ns s, between ns s -> exists s', goes s (map LChar (on_wire ls)) s' /\ between (ns ++ not_blank ls) s'.
Proof.
  induction 1 as [|l ls N _ IH]; intros ns s B; [exists s; cbn; rewrite app_nil_r; split; [apply goes_nil|auto]|].
  destruct (noted ns s l B N) as (m & G & B'). destruct (IH _ _ B') as (s' & G' & B''). exists s'. rewrite on_wire_cons, map_app. split; [eapply goes_trans; eauto|].
  change (l :: ls) with ([l] ++ ls). rewrite not_blank_app, app_assoc. auto.
Qed.
Lemma notified_last ns s l : between ns s -> no_crlf l -> l <> [] -> exists s', goes s (map LChar (l ++ crlf) ++ [LCallback (ns ++ [l])]) s' /\ between [] s'.
Proof.
  intros B N Ne. pose proof B as [L E X Rd W Nt]. pose proof (reads_line s l Rd X N) as G. destruct l as [|c l]; [congruence|].
  remember (c :: l) as line eqn:El. clear El Ne c l B. destruct s as [lk ev se ex rp hp fr nt rd wr]. fields. subst lk ev ex rd nt. eexists. split.
  - eapply goes_trans; [exact G|].
    change [LCallback (ns ++ [line])] with (filter outside [LLine line true] ++ filter outside [LNotify line] ++ filter outside [LCallback (ns ++ [line])]).
    reads the_last. reads the_last. eapply goes_read with (i := the_last). unfold read_step. unfold the_last. fields. reflexivity.
  - constructor; fields; auto.
Qed.

Lemma init_between : between [] s_init.
Proof. constructor; reflexivity. Qed.
Lemma ok_no_crlf : no_crlf (lit "OK").
Proof. intros (a & b & E). destruct a as [|x [|y [|z a]]]; cbn in E; try discriminate. Qed.
Lemma head_and_text head before last : no_crlf head -> ~ final_line head -> Forall no_crlf before -> Forall (fun l => ~ final_line l) before ->
  no_crlf last -> final_line last -> plain_answer (head :: before ++ [last]).
Proof.
  intros Nh Fh Nb Fb Nl Fl. exists (head :: before), last. split; auto. split; [|split; auto].
  constructor; auto. apply Forall_app. auto.
Qed.
Theorem left_over_notified i data head before last after : no_crlf head -> ~ final_line head -> Forall no_crlf (before ++ last :: after) ->
  Forall (fun l => ~ final_line l) before -> final_line last ->
  possible (turn i data (head :: before ++ [last]) (not_blank (head :: before ++ [last])) ++
            map LChar (on_wire (after ++ [lit "OK"])) ++ [LCallback (not_blank after ++ [lit "OK"])]).
Proof.
  intros Nh Fh Nc Fb Fl. apply Forall_app in Nc as [Nb Nc]. inversion Nc; subst.
  destruct (takes_turn [] i data (head :: before ++ [last]) s_init) as (s1 & G1 & B1); [apply head_and_text; auto|apply init_between|].
  destruct (noted_all after H2 _ _ B1) as (s2 & G2 & B2). destruct (notified_last _ _ (lit "OK") B2 ok_no_crlf) as (s3 & G3 & _); [discriminate|].
  assert (G : goes s_init (turn i data (head :: before ++ [last]) (not_blank (head :: before ++ [last])) ++
            map LChar (on_wire (after ++ [lit "OK"])) ++ [LCallback (not_blank after ++ [lit "OK"])]) s3).
  { eapply goes_trans; [exact G1|]. rewrite on_wire_app, map_app, <- app_assoc. eapply goes_trans; [exact G2|]. rewrite on_wire_cons. change (on_wire []) with (@nil Z). rewrite app_nil_r. exact G3. }
  destruct G as (tr & R & [N _] & E). exists tr, s3. auto.
Qed.
Theorem left_over_answers i data head before last after cs : no_crlf head -> ~ final_line head -> Forall no_crlf (before ++ last :: after) ->
  Forall (fun l => ~ final_line l) before -> final_line last -> Forall (fun l => ~ final_line l) after -> Forall (fun c => plain_answer (snd c)) cs ->
  possible (turn i data (head :: before ++ [last]) (not_blank (head :: before ++ [last])) ++ late_turns (after ++ [lit "OK"]) cs).
Proof.
  intros Nh Fh Nc Fb Fl Fa Fcs. apply Forall_app in Nc as [Nb Nc]. inversion Nc; subst.
  destruct (takes_turn [] i data (head :: before ++ [last]) s_init) as (s1 & G1 & B1); [apply head_and_text; auto|apply init_between|].
  destruct (takes_turns [] cs Fcs (after ++ [lit "OK"]) s1) as (s2 & G2 & _); auto.
  { exists after, (lit "OK"). split; auto. split; [apply Forall_app; split; auto; constructor; auto; apply ok_no_crlf|]. split; auto. apply ok_final. }
  destruct (goes_trans _ _ _ _ _ G1 G2) as (tr & R & [N _] & E). exists tr, s2. auto.
Qed.
