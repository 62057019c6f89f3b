(** Exactly which text-mode time stamps are accepted. *)
From Verif Require Import Base PduModel PduSpec SeptetProofs Gsm7Proofs FieldProofs TimeProofs UtilModel UtilSpec UtilProofs.
From Coq Require Import ZifyBool.
Ltac Zify.zify_post_hook ::= Z.div_mod_to_equations.

Lemma alt2_in a b c d s v r : 0 <= a -> b <= 9 -> 0 <= c -> d <= 9 -> In (v, r) (alt2 a b c d s) -> s = dec2 v ++ r /\ 0 <= v <= 99.
Proof.
  intros ? ? ? ? I. unfold alt2, in_cls, dig in I. destruct s as [|x [|y s']]; try destruct I.
  destruct (_ && _)%bool eqn:C in I; [|destruct I]. destruct I as [[= <- <-]|[]]. split; [|lia].
  unfold dec2. cbn [List.app]. repeat f_equal; lia.
Qed.
Lemma alt1_in a b s v r : In (v, r) (alt1 a b s) -> s = [48 + v] ++ r /\ a <= v <= b.
Proof.
  intros I. unfold alt1, in_cls, dig in I. destruct s as [|x s']; try destruct I.
  destruct (_ && _)%bool eqn:C in I; [|destruct I]. destruct I as [[= <- <-]|[]]. split; [|lia]. cbn [List.app]. f_equal. lia.
Qed.
Lemma alt_sp_in a b s v r : In (v, r) (alt_sp a b s) -> s = [32; 48 + v] ++ r /\ a <= v <= b.
Proof.
  intros I. unfold alt_sp, in_cls, dig in I. destruct s as [|x s']; try destruct I.
  destruct (Z.eq_dec x 32) as [->|N].
  - destruct s' as [|y s']; [destruct I|]. destruct (_ && _)%bool eqn:C in I; [|destruct I]. destruct I as [[= <- <-]|[]]. split; [|lia]. cbn [List.app]. do 2 f_equal. lia.
  - exfalso. destruct x as [|p|p]; try destruct I. do 6 (destruct p; try (destruct I; fail)); congruence.
Qed.
Definition reads (f : field) (spaced : bool) : Prop := forall s v r, In (v, r) (f s) -> exists txt, s = txt ++ r /\ field_text spaced v txt /\ 0 <= v <= 99.
Ltac rd := intros s v r I; repeat (apply in_app_or in I as [I|I]);
  (apply alt2_in in I as [-> ?]; [exists (dec2 v); unfold field_text; auto|lia..]) || (apply alt1_in in I as [-> ?]; exists [48 + v]; split; [auto|unfold field_text; split; [right; split; [lia|auto]|lia]])
  || (apply alt_sp_in in I as [-> ?]; exists [32; 48 + v]; split; [auto|unfold field_text; split; [right; split; [lia|auto]|lia]]).
Lemma reads_m : reads f_m false. Proof. rd. Qed.
Lemma reads_d : reads f_d true. Proof. rd. Qed.
Lemma reads_H : reads f_H false. Proof. rd. Qed.
Lemma reads_M : reads f_M false. Proof. rd. Qed.
Lemma reads_S : reads f_S false. Proof. rd. Qed.
Lemma lit_in c s v r : In (v, r) (f_lit c s) -> s = c :: r.
Proof. unfold f_lit. destruct s as [|a s]; [intros []|]. destruct (a =? c) eqn:E; [|intros []]. intros [[= <- <-]|[]]. apply Z.eqb_eq in E. congruence. Qed.
Lemma fields_in f fs s v vs r : In (v :: vs, r) (match_fields (f :: fs) s) -> exists s', In (v, s') (f s) /\ In (vs, r) (match_fields fs s').
Proof. intro I. cbn [match_fields] in I. apply in_flat_map in I as ([v0 s0] & I & J). apply in_map_iff in J as ([vs0 r0] & [= -> -> ->] & J). eauto. Qed.
Lemma date_reads s y v1 mo v2 d v3 h v4 mi v5 se :
  In ([y; v1; mo; v2; d; v3; h; v4; mi; v5; se], @nil Z) (match_fields [f_y; f_lit 47; f_m; f_lit 47; f_d; f_lit 44; f_H; f_lit 58; f_M; f_lit 58; f_S] s) ->
  0 <= y <= 99 /\ exists tmo td th tmi ts, field_text false mo tmo /\ field_text true d td /\ field_text false h th /\ field_text false mi tmi /\ field_text false se ts /\
    s = dec2 y ++ lit "/" ++ tmo ++ lit "/" ++ td ++ lit "," ++ th ++ lit ":" ++ tmi ++ lit ":" ++ ts.
Proof.
  intro I.
  apply fields_in in I as (s1 & A1 & I). apply fields_in in I as (s2 & A2 & I). apply fields_in in I as (s3 & A3 & I). apply fields_in in I as (s4 & A4 & I).
  apply fields_in in I as (s5 & A5 & I). apply fields_in in I as (s6 & A6 & I). apply fields_in in I as (s7 & A7 & I). apply fields_in in I as (s8 & A8 & I).
  apply fields_in in I as (s9 & A9 & I). apply fields_in in I as (s10 & A10 & I). apply fields_in in I as (s11 & A11 & I).
  destruct I as [[= ->]|[]].
  apply alt2_in in A1 as [-> Hy]; [|lia..]. apply lit_in in A2 as ->. apply reads_m in A3 as (t3 & -> & F3 & _). apply lit_in in A4 as ->.
  apply reads_d in A5 as (t5 & -> & F5 & _). apply lit_in in A6 as ->. apply reads_H in A7 as (t7 & -> & F7 & _). apply lit_in in A8 as ->.
  apply reads_M in A9 as (t9 & -> & F9 & _). apply lit_in in A10 as ->. apply reads_S in A11 as (t11 & -> & F11 & _).
  split; [exact Hy|]. exists t3, t5, t7, t9, t11. repeat (split; [assumption|]). rewrite app_nil_r. reflexivity.
Qed.

(** the first match of a field takes the text that stands before something that is not a digit *)
Definition no_digit (s : str) : Prop := match s with [] => True | c :: _ => ~ (48 <= c <= 57) end.
Definition takes_text (f : field) (spaced : bool) (lo hi : Z) : Prop :=
  forall v txt s, lo <= v <= hi -> field_text spaced v txt -> no_digit s -> exists more, f (txt ++ s) = (v, s) :: more.
Lemma alt2_one a b c d x s : 0 <= c -> d <= 9 -> no_digit s -> alt2 a b c d (x :: s) = [].
Proof. intros ? ? N. unfold alt2, in_cls. destruct s as [|y s]; [reflexivity|]. cbn in N. destruct (_ && _)%bool eqn:C; [lia|reflexivity]. Qed.
Lemma alt1_one a b v s : a <= v <= b -> alt1 a b ([48 + v] ++ s) = [(v, s)].
Proof. intros H. cbn [List.app alt1]. unfold in_cls, dig. destruct (_ && _)%bool eqn:C; [|lia]. repeat f_equal. lia. Qed.
Lemma alt1_space a b s : 0 <= a -> alt1 a b (32 :: s) = [].
Proof. intro H. cbn [alt1]. unfold in_cls. destruct (_ && _)%bool eqn:C; [lia|reflexivity]. Qed.
Lemma alt2_space a b c d s : 0 <= a -> alt2 a b c d (32 :: s) = [].
Proof. intro H. unfold alt2, in_cls. destruct s as [|y s]; [reflexivity|]. destruct (_ && _)%bool eqn:C; [lia|reflexivity]. Qed.
Lemma alt_sp_one a b v s : a <= v <= b -> alt_sp a b ([32; 48 + v] ++ s) = [(v, s)].
Proof. intros H. cbn [List.app alt_sp]. unfold in_cls, dig. destruct (_ && _)%bool eqn:C; [|lia]. repeat f_equal. lia. Qed.
Ltac tk T := intros v txt s Hv [->|[L [->|[Sp ->]]]] N; [rewrite dec2_two; apply T; exact Hv| |try discriminate];
  unfold f_m, f_d, f_H, f_M, f_S, orf; [change ([48 + v] ++ s) with ((48 + v) :: s); rewrite !alt2_one by (lia || assumption); change ((48 + v) :: s) with ([48 + v] ++ s); rewrite alt1_one by lia; cbn [List.app]; eauto|..].
Lemma text_m : takes_text f_m false 1 12. Proof. tk takes_m. Qed.
Lemma text_d : takes_text f_d true 1 31.
Proof. tk takes_d. change ([32; 48 + v] ++ s) with (32 :: (48 + v) :: s). rewrite !alt2_space, alt1_space by lia. change (32 :: (48 + v) :: s) with ([32; 48 + v] ++ s). rewrite alt_sp_one by lia. cbn [List.app]. eauto. Qed.
Lemma text_H : takes_text f_H false 0 23. Proof. tk takes_H. Qed.
Lemma text_M : takes_text f_M false 0 59. Proof. tk takes_M. Qed.
Lemma text_S : takes_text f_S false 0 59. Proof. tk takes_S. Qed.
Lemma match_text f spaced lo hi fs v txt s vs r more0 : takes_text f spaced lo hi -> lo <= v <= hi -> field_text spaced v txt -> no_digit s ->
  match_fields fs s = (vs, r) :: more0 -> exists more, match_fields (f :: fs) (txt ++ s) = (v :: vs, r) :: more.
Proof.
  intros T Hv F N E. destruct (T v txt s Hv F N) as [m Em]. cbn [match_fields]. rewrite Em. cbn [flat_map fst snd]. rewrite E. cbn [map List.app fst snd]. eauto.
Qed.
Lemma date_takes y mo d h mi se tmo td th tmi ts : 0 <= y <= 99 -> 1 <= mo <= 12 -> 1 <= d <= 31 -> real_time h mi se ->
  field_text false mo tmo -> field_text true d td -> field_text false h th -> field_text false mi tmi -> field_text false se ts ->
  exists more, match_fields [f_y; f_lit 47; f_m; f_lit 47; f_d; f_lit 44; f_H; f_lit 58; f_M; f_lit 58; f_S]
    (dec2 y ++ lit "/" ++ tmo ++ lit "/" ++ td ++ lit "," ++ th ++ lit ":" ++ tmi ++ lit ":" ++ ts) = ([y; 0; mo; 0; d; 0; h; 0; mi; 0; se], []) :: more.
Proof.
  intros Hy Hm Hd (Hh & Hmi & Hs) Fm Fd Fh Fmi Fs. rewrite <- (app_nil_r ts).
  assert (E0 : match_fields [] [] = [([], [])]) by reflexivity.
  destruct (match_text f_S _ _ _ [] _ _ [] _ _ _ text_S Hs Fs I E0) as [m1 E1].
  destruct (match_lit 58 _ _ _ _ _ E1) as [l1 F1].
  eapply (match_text f_M) with (3 := Fmi) in F1; [|exact text_M|exact Hmi|cbn; lia]. destruct F1 as [m2 E2].
  destruct (match_lit 58 _ _ _ _ _ E2) as [l2 F2].
  eapply (match_text f_H) with (3 := Fh) in F2; [|exact text_H|exact Hh|cbn; lia]. destruct F2 as [m3 E3].
  destruct (match_lit 44 _ _ _ _ _ E3) as [l3 F3].
  eapply (match_text f_d) with (3 := Fd) in F3; [|exact text_d|exact Hd|cbn; lia]. destruct F3 as [m4 E4].
  destruct (match_lit 47 _ _ _ _ _ E4) as [l4 F4].
  eapply (match_text f_m) with (3 := Fm) in F4; [|exact text_m|exact Hm|cbn; lia]. destruct F4 as [m5 E5].
  destruct (match_lit 47 _ _ _ _ _ E5) as [l5 F5].
  destruct (match_cons f_y _ y _ _ _ _ (takes_y _ Hy) F5) as [m6 E6].
  exists m6. exact E6.
Qed.
Lemma text_time_exact s t : parseTextModeTimeStr s = Ok t <->
  exists date zone q y mo d h mi se, s = date ++ zone /\ length zone = 3%nat /\ py_int 10 zone = Ok q /\ read_as date y mo d h mi se /\
    1969 <= y <= 2068 /\ real_date y mo d /\ real_time h mi se /\ t = mk_datetime y mo d h mi se 0 (Some (td_of_hours (Z.quot q 4))).
Proof.
  split.
  - intro E. unfold parseTextModeTimeStr in E. destruct (py_int 10 (last_n 3 s)) as [q|e] eqn:Q; cbn [bind] in E; [|discriminate].
    unfold strptime_text, strptime_fields in E.
    destruct (match_fields _ (drop_last 3 s)) as [|[vs [|? ?]] m] eqn:M in E; [discriminate| |discriminate].
    destruct vs as [|y [|v1 [|mo [|v2 [|d [|v3 [|h [|v4 [|mi [|v5 [|se [|]]]]]]]]]]]]; try discriminate.
    assert (In ([y; v1; mo; v2; d; v3; h; v4; mi; v5; se], @nil Z) (match_fields [f_y; f_lit 47; f_m; f_lit 47; f_d; f_lit 44; f_H; f_lit 58; f_M; f_lit 58; f_S] (drop_last 3 s))) as I
      by (rewrite M; left; reflexivity).
    apply date_reads in I as (Hy & tmo & td & th & tmi & ts & Fm & Fd & Fh & Fmi & Fs & D).
    unfold datetime_new in E. destruct (valid_fields _ mo d h mi se) eqn:V; [|discriminate]. injection E as <-.
    apply valid_fields_spec in V as (Vy & Vd & Vt).
    exists (drop_last 3 s), (last_n 3 s), q, (full_year y), mo, d, h, mi, se.
    assert (L : (3 <= length s)%nat).
    { destruct (Nat.le_gt_cases 3 (length s)) as [L|L]; [exact L|]. exfalso. unfold drop_last in D. replace (length s - 3)%nat with 0%nat in D by lia. discriminate. }
    split; [unfold drop_last, last_n; symmetry; apply firstn_skipn|]. split; [unfold last_n; rewrite skipn_length; lia|]. split; [exact Q|].
    assert (Ym : full_year y mod 100 = y) by (unfold full_year; destruct (y <=? 68) eqn:L68; lia).
    split; [exists tmo, td, th, tmi, ts; rewrite Ym; auto 10|]. split; [unfold full_year; destruct (y <=? 68) eqn:L68; lia|]. auto.
  - intros (date & zone & q & y & mo & d & h & mi & se & -> & L & Q & (tmo & td & th & tmi & ts & Fm & Fd & Fh & Fmi & Fs & ->) & Hy & Hd & Ht & ->).
    unfold parseTextModeTimeStr. destruct (slice_last (dec2 (y mod 100) ++ lit "/" ++ tmo ++ lit "/" ++ td ++ lit "," ++ th ++ lit ":" ++ tmi ++ lit ":" ++ ts) zone 3 L) as [-> ->].
    rewrite Q. cbn [bind]. unfold strptime_text, strptime_fields. pose proof (real_date_bounds _ _ _ Hd) as [Hm Hd'].
    assert (Hy2 : 0 <= y mod 100 <= 99) by lia.
    destruct (date_takes (y mod 100) mo d h mi se tmo td th tmi ts Hy2 Hm Hd' Ht Fm Fd Fh Fmi Fs) as [m ->].
    rewrite full_year_mod by lia. unfold datetime_new. replace (valid_fields _ _ _ _ _ _) with true; [reflexivity|].
    symmetry. apply valid_fields_spec. split; [lia|]. auto.
Qed.
