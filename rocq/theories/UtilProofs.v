(** Proofs about util.py. *)
From Verif Require Import Base PduModel PduSpec SeptetProofs Gsm7Proofs FieldProofs TimeProofs UtilModel UtilSpec.
From Coq Require Import ZifyBool.
Ltac Zify.zify_post_hook ::= Z.div_mod_to_equations.

Lemma dec2_two n : dec2 n = two_digits n. Proof. reflexivity. Qed.

Lemma zone_int neg n : 0 <= n <= 99 -> py_int 10 (zone_text neg n) = Ok (if neg then - n else n).
Proof.
  intro H.
  assert (F : forallb (fun i => forallb (fun neg : bool => match py_int 10 (zone_text neg (Z.of_nat i)) with
     Ok v => v =? (if neg then - Z.of_nat i else Z.of_nat i) | _ => false end) [true; false]) (seq 0 100) = true) by (vm_compute; reflexivity).
  rewrite forallb_forall in F. specialize (F (Z.to_nat n)). rewrite in_seq in F. specialize (F ltac:(lia)).
  rewrite forallb_forall in F. specialize (F neg ltac:(destruct neg; cbn; auto)). rewrite Z2Nat.id in F by lia.
  destruct (py_int 10 (zone_text neg n)); [f_equal; lia|discriminate].
Qed.

Lemma slice_last (a b : str) n : length b = n -> drop_last n (a ++ b) = a /\ last_n n (a ++ b) = b.
Proof.
  intros <-. unfold drop_last, last_n. rewrite app_length. replace (length a + length b - length b)%nat with (length a) by lia.
  rewrite firstn_app, skipn_app, Nat.sub_diag, firstn_all, skipn_all. cbn [firstn skipn]. rewrite app_nil_r. auto.
Qed.

Lemma text_fields y mo d h mi s : 1969 <= y <= 2068 -> 1 <= mo <= 12 -> 1 <= d <= 31 -> real_time h mi s ->
  exists more, match_fields [f_y; f_lit 47; f_m; f_lit 47; f_d; f_lit 44; f_H; f_lit 58; f_M; f_lit 58; f_S] (date_text y mo d h mi s)
    = ([y mod 100; 0; mo; 0; d; 0; h; 0; mi; 0; s], []) :: more.
Proof.
  intros Hy Hm Hd (Hh & Hmi & Hs). unfold date_text. rewrite !dec2_two.
  assert (E0 : match_fields [] [] = [([], [])]) by reflexivity.
  destruct (match_cons f_S [] s [] [] [] [] (takes_S _ Hs) E0) as [m1 E1].
  destruct (match_lit 58 _ _ _ _ _ E1) as [l1 F1].
  destruct (match_cons f_M _ mi _ _ _ _ (takes_M _ Hmi) F1) as [m2 E2].
  destruct (match_lit 58 _ _ _ _ _ E2) as [l2 F2].
  destruct (match_cons f_H _ h _ _ _ _ (takes_H _ Hh) F2) as [m3 E3].
  destruct (match_lit 44 _ _ _ _ _ E3) as [l3 F3].
  destruct (match_cons f_d _ d _ _ _ _ (takes_d _ Hd) F3) as [m4 E4].
  destruct (match_lit 47 _ _ _ _ _ E4) as [l4 F4].
  destruct (match_cons f_m _ mo _ _ _ _ (takes_m _ Hm) F4) as [m5 E5].
  destruct (match_lit 47 _ _ _ _ _ E5) as [l5 F5].
  assert (Hy2 : 0 <= y mod 100 <= 99) by lia.
  destruct (match_cons f_y _ (y mod 100) _ _ _ _ (takes_y _ Hy2) F5) as [m6 E6].
  rewrite app_nil_r in E6. exists m6. exact E6.
Qed.

Lemma parse_text_date y mo d h mi s neg n : 1969 <= y <= 2068 -> 1 <= mo <= 12 -> 1 <= d <= 31 -> real_time h mi s -> 0 <= n <= 99 ->
  parseTextModeTimeStr (date_text y mo d h mi s ++ zone_text neg n) =
  datetime_new y mo d h mi s (Some (td_of_hours (Z.quot (if neg then - n else n) 4))).
Proof.
  intros Hy Hm Hd Ht Hn. unfold parseTextModeTimeStr.
  destruct (slice_last (date_text y mo d h mi s) (zone_text neg n) 3 eq_refl) as [-> ->].
  rewrite zone_int by auto. cbn [bind]. unfold strptime_text, strptime_fields.
  destruct (text_fields y mo d h mi s Hy Hm Hd Ht) as [m ->]. rewrite full_year_mod by lia. reflexivity.
Qed.

Lemma text_time_ok y mo d h mi s neg n : 1969 <= y <= 2068 -> real_date y mo d -> real_time h mi s -> 0 <= n <= 99 ->
  parseTextModeTimeStr (date_text y mo d h mi s ++ zone_text neg n) =
  Ok (mk_datetime y mo d h mi s 0 (Some (td_of_hours (Z.quot (if neg then - n else n) 4)))).
Proof.
  intros Hy Hd Ht Hn. pose proof (real_date_bounds _ _ _ Hd) as [Hm Hd']. rewrite parse_text_date by auto.
  unfold datetime_new. replace (valid_fields _ _ _ _ _ _) with true; [reflexivity|].
  symmetry. apply valid_fields_spec. split; [lia|]. auto.
Qed.
Lemma text_time_bad_date y mo d h mi s neg n : 1969 <= y <= 2068 -> 1 <= mo <= 12 -> 1 <= d <= 31 -> ~ real_date y mo d ->
  real_time h mi s -> 0 <= n <= 99 ->
  parseTextModeTimeStr (date_text y mo d h mi s ++ zone_text neg n) = Err ValueError.
Proof.
  intros Hy Hm Hd Nd Ht Hn. rewrite parse_text_date by auto. unfold datetime_new.
  destruct (valid_fields y mo d h mi s) eqn:E; [|reflexivity]. apply valid_fields_spec in E. tauto.
Qed.
Lemma text_offset_right (neg : bool) n : 0 <= n <= 99 -> let q := if neg then - n else n in
  (td_of_hours (Z.quot q 4) = td_of_minutes (15 * q) <-> n mod 4 = 0) /\
  0 <= Z.abs (td_of_minutes (15 * q)) - Z.abs (td_of_hours (Z.quot q 4)) <= td_of_minutes 45.
Proof.
  intros H q. unfold td_of_hours, td_of_minutes, td_of_seconds, us_per_s.
  assert (Hq : Z.quot q 4 = (if neg then -1 else 1) * (n / 4)).
  { subst q. destruct neg.
    - replace (- n) with (-1 * n) by lia. rewrite <- (Z.quot_div_nonneg n 4) by lia.
      replace (-1 * n) with (- n) by lia. rewrite Z.quot_opp_l by lia. lia.
    - rewrite Z.quot_div_nonneg by lia. lia. }
  rewrite Hq. subst q. destruct neg; lia.
Qed.

Definition int_body (b : Z) (s : str) : res Z :=
  match s with [] => Err ValueError | _ => match int_digits b 0 s with Some v => Ok v | None => Err ValueError end end.
Lemma py_int_eq b s : py_int b s =
  match strip s with
  | [] => Err ValueError
  | c :: s' => if c =? 43 then int_body b s' else if c =? 45 then bind (int_body b s') (fun v => Ok (- v)) else int_body b (c :: s')
  end.
Proof.
  unfold py_int. cbv zeta. change (fun s0 : str => match s0 with [] => Err ValueError | _ :: _ => match int_digits b 0 s0 with Some v => Ok v | None => Err ValueError end end) with (int_body b).
  destruct (strip s) as [|c t]; [reflexivity|].
  destruct c as [|p|p]; try reflexivity.
  do 6 (destruct p as [p|p|]; try reflexivity).
Qed.
Lemma int_body_err b s e : int_body b s = Err e -> e = ValueError.
Proof. destruct s; cbn [int_body]; [congruence|]. destruct (int_digits b 0 _); congruence. Qed.
Lemma py_int_err b s e : py_int b s = Err e -> e = ValueError.
Proof.
  rewrite py_int_eq. destruct (strip s) as [|c t]; [congruence|].
  destruct (c =? 43); [apply int_body_err|]. destruct (c =? 45); [|apply int_body_err].
  destruct (int_body b t) eqn:E; cbn [bind]; [discriminate|]. intros [= <-]. eapply int_body_err; eauto.
Qed.
Lemma text_time_total s : match parseTextModeTimeStr s with
  | Ok t => exists y, dt_year t = y /\ 1969 <= y <= 2068 /\ real_date y (dt_month t) (dt_day t) /\
            real_time (dt_hour t) (dt_minute t) (dt_second t) /\ exists hours, dt_utcoff t = Some (td_of_hours hours)
  | Err e => e = ValueError
  end.
Proof.
  unfold parseTextModeTimeStr. destruct (py_int 10 (last_n 3 s)) as [q|e] eqn:E; cbn [bind]; [|eapply py_int_err; eauto].
  unfold strptime_text, strptime_fields.
  destruct (match_fields _ (drop_last 3 s)) as [|[vs [|? ?]] m] eqn:M; auto.
  destruct vs as [|y [|v1 [|mo [|v2 [|d [|v3 [|h [|v4 [|mi [|v5 [|se [|]]]]]]]]]]]]; auto.
  unfold datetime_new. destruct (valid_fields _ mo d h mi se) eqn:V; auto. cbn [dt_year dt_month dt_day dt_hour dt_minute dt_second dt_utcoff].
  apply valid_fields_spec in V as (Vy & Vd & Vt). eexists. split; [reflexivity|]. split; [|split; [auto|split; [auto|eauto]]].
  assert (Hy : 0 <= y <= 99).
  { cbn [match_fields] in M. assert (I : In (y :: v1 :: mo :: v2 :: d :: v3 :: h :: v4 :: mi :: v5 :: [se], @nil Z) 
      (match_fields [f_y; f_lit 47; f_m; f_lit 47; f_d; f_lit 44; f_H; f_lit 58; f_M; f_lit 58; f_S] (drop_last 3 s))).
    { cbn [match_fields]. rewrite M. left. reflexivity. }
    cbn [match_fields] in I. apply in_flat_map in I as ([y0 s0] & I & J). apply in_map_iff in J as ([vs0 r0] & [= -> _ _] & _).
    cbn [fst snd] in *. subst.
    unfold f_y, alt2, in_cls, dig in I. destruct (drop_last 3 s) as [|a [|b s']]; try destruct I.
    match type of I with context [if ?c then _ else _] => destruct c eqn:C end; [|destruct I]. destruct I as [[= <- <-]|[]]. lia. }
  unfold full_year. destruct (y <=? 68) eqn:L; lia.
Qed.

(** ** Line searches *)
Lemma starting_with_spec p lines : match lineStartingWith p lines with
  | Some l => first_such (fun l => exists r, l = p ++ r) lines l
  | None => forall l, In l lines -> ~ exists r, l = p ++ r
  end.
Proof.
  assert (SW : forall s p, startswith s p = true <-> exists r, s = p ++ r).
  { clear. intros s p. revert s. induction p as [|c p IH]; intros s; [destruct s; cbn; split; eauto|].
    destruct s as [|a s]; cbn [startswith]; [split; [discriminate|intros [r E]; discriminate]|].
    rewrite andb_true_iff, IH, Z.eqb_eq. split; [intros [-> [r ->]]; exists r; auto|intros [r [= -> ->]]; eauto]. }
  induction lines as [|l lines IH]; cbn [lineStartingWith]; [intros l []|].
  destruct (startswith l p) eqn:E.
  - exists [], lines. split; auto. split; [apply SW; auto|intros y []].
  - assert (N : ~ exists r, l = p ++ r) by (rewrite <- SW; congruence).
    destruct (lineStartingWith p lines) as [x|].
    + destruct IH as (b & a & -> & P & Q). exists (l :: b), a. split; auto. split; auto. intros y [<-|I]; auto.
    + intros y [<-|I]; auto.
Qed.
Lemma matching_spec M (p : pattern M) lines : match lineMatchingPattern p lines with
  | Some m => exists l, p l = Some m /\ first_such (fun l => p l <> None) lines l
  | None => forall l, In l lines -> p l = None
  end.
Proof.
  induction lines as [|l lines IH]; cbn [lineMatchingPattern]; [intros l []|]. destruct (p l) as [m|] eqn:E.
  - exists l. split; auto. exists [], lines. split; auto. split; [congruence|intros y []].
  - destruct (lineMatchingPattern p lines) as [x|].
    + destruct IH as (l' & Q & b & a & -> & P & N). exists l'. split; auto. exists (l :: b), a. split; auto. split; auto.
      intros y [<-|I]; auto.
    + intros y [<-|I]; auto.
Qed.
(** the results, in order, together with the lines they come from *)
Lemma all_acc M (p : pattern M) lines : forall acc,
  fold_left (fun result line => match p line with Some m => result ++ [m] | None => result end) lines acc
  = acc ++ flat_map (fun l => match p l with Some m => [m] | None => [] end) lines.
Proof.
  induction lines as [|l lines IH]; intro acc; cbn [fold_left flat_map]; [rewrite app_nil_r; auto|].
  rewrite IH. destruct (p l); cbn [app]; rewrite <- ?app_assoc; auto.
Qed.
Lemma all_matching_spec M (p : pattern M) lines :
  map Some (allLinesMatchingPattern p lines) = map p (filter (fun l => if p l then true else false) lines).
Proof.
  unfold allLinesMatchingPattern. rewrite all_acc. cbn [app].
  induction lines as [|l lines IH]; cbn [flat_map filter]; auto.
  destruct (p l) eqn:E; cbn [app map]; rewrite ?E, ?IH; auto.
Qed.
