(** Facts about _decodeTimestamp on any octets. *)
From Verif Require Import Base DateModel PduModel PduSpec FieldProofs TimeProofs StampSpec.
From Coq Require Import ZifyBool.
Ltac Zify.zify_post_hook ::= Z.div_mod_to_equations.

Definition nib (v : Z) : Prop := 0 <= v < 16.
Lemma loop_semis n : forall it i, octets_ok it -> exists ds rest, semis (S n) it ds rest /\ Forall nib ds /\ decodeSemiOctets_loop it (Some (i + Z.of_nat (S n))) i = (lows ds, rest).
Proof.
  induction n as [|n IH]; intros it i O; (destruct O as [|o it Ho O]; [exists [], []; split; [apply se_end|split; [constructor|reflexivity]]|]); cbn [decodeSemiOctets_loop];
    assert (N1 : nib (o mod 16)) by (unfold nib; lia); assert (N2 : nib (o / 16)) by (unfold nib; lia).
  - destruct (Z.eqb_spec (o / 16) 15) as [E|E]; [exists [o mod 16], it; split; [apply se_filler; auto|split; [auto|reflexivity]]|].
    replace (i + 1 =? i + Z.of_nat 1) with true by lia. exists [o mod 16; o / 16], it. split; [apply se_two; auto; apply se_full|]. split; [auto|reflexivity].
  - destruct (Z.eqb_spec (o / 16) 15) as [E|E]; [exists [o mod 16], it; split; [apply se_filler; auto|split; [auto|reflexivity]]|].
    replace (i + 1 =? i + Z.of_nat (S (S n))) with false by lia. destruct (IH it (i + 1) O) as (ds & rest & S1 & F & L).
    replace (i + 1 + Z.of_nat (S n)) with (i + Z.of_nat (S (S n))) in L by lia. rewrite L. exists (o mod 16 :: o / 16 :: ds), rest. split; [apply se_two; auto|]. split; auto.
Qed.
Lemma semis_fun n it ds rest : semis n it ds rest -> forall ds' rest', semis n it ds' rest' -> ds = ds' /\ rest = rest'.
Proof.
  induction 1 as [it|n|n o it E|n o it ds rest E H IH]; intros ds' rest' H'; inversion H' as [|?|? ? ? E'|? ? ? ? ? E' H2]; subst; try contradiction; auto.
  destruct (IH _ _ H2) as [-> ->]. auto.
Qed.

(** ** The fields of strptime on semi-octets *)
Definition two (lo hi a b : Z) : bool := (a <=? 9) && (b <=? 9) && (lo <=? 10 * a + b) && (10 * a + b <=? hi).
Definition one (lo a : Z) : bool := (lo <=? a) && (a <=? 9).
Definition step (p : Z * Z) (ds : list Z) : list (bool * Z * list Z) :=
  match ds with
  | a :: b :: r => (if two (fst p) (snd p) a b then [(true, 10 * a + b, r)] else []) ++ (if one (fst p) a then [(false, a, b :: r)] else [])
  | [a] => if one (fst p) a then [(false, a, [])] else []
  | [] => []
  end.
Definition realizes (f : field) (p : Z * Z) : Prop := forall ds, Forall nib ds -> f (lows ds) = map (fun x => (snd (fst x), lows (snd x))) (step p ds).
Lemma nib_in v : nib v -> In v (map Z.of_nat (seq 0 16)).
Proof. intro H. unfold nib in H. apply in_map_iff. exists (Z.to_nat v). split; [lia|apply in_seq; lia]. Qed.
Ltac every H := apply nib_in in H; cbn in H; repeat (destruct H as [<-|H]); [..|contradiction].
Ltac real := intros ds F; destruct F as [|a ds Ha F]; [reflexivity|]; destruct F as [|b ds Hb F]; [every Ha; reflexivity|]; every Ha; every Hb; reflexivity.
Lemma realizes_m : realizes f_m (1, 12). Proof. real. Qed.
Lemma realizes_d : realizes f_d (1, 31). Proof. real. Qed.
Lemma realizes_H : realizes f_H (0, 23). Proof. real. Qed.
Lemma realizes_M : realizes f_M (0, 59). Proof. real. Qed.
Lemma realizes_S : realizes f_S (0, 61). Proof. real. Qed.
Lemma year_field a b ds : nib a -> nib b -> f_y (lows (a :: b :: ds)) = if (a <=? 9) && (b <=? 9) then [(10 * a + b, lows ds)] else [].
Proof. intros Ha Hb. every Ha; every Hb; reflexivity. Qed.

(** the ways to read, in the order in which they are tried *)
Fixpoint ways (bs : list (Z * Z)) (ds : list Z) : list (list bool * list Z * list Z) :=
  match bs with
  | [] => [([], [], ds)]
  | p :: bs' => flat_map (fun x => map (fun y => (fst (fst x) :: fst (fst y), snd (fst x) :: snd (fst y), snd y)) (ways bs' (snd x))) (step p ds)
  end.
Lemma step_nib p ds x : Forall nib ds -> In x (step p ds) -> Forall nib (snd x).
Proof.
  intros F H. destruct F as [|a ds Ha F]; [contradiction|]. destruct F as [|b ds Hb F]; cbn [step] in H.
  - destruct (one _ _); [|contradiction]. destruct H as [<-|[]]. constructor.
  - apply in_app_iff in H as [H|H]; [destruct (two _ _ _ _)|destruct (one _ _)]; try contradiction; destruct H as [<-|[]]; cbn; auto.
Qed.
Lemma match_ways fs bs : Forall2 realizes fs bs -> forall ds, Forall nib ds -> match_fields fs (lows ds) = map (fun x => (snd (fst x), lows (snd x))) (ways bs ds).
Proof.
  induction 1 as [|f p fs bs R _ IH]; intros ds N; [reflexivity|]. cbn [match_fields ways]. rewrite (R ds N).
  assert (K : forall l, (forall x, In x l -> Forall nib (snd x)) ->
    flat_map (fun vs : Z * str => map (fun r => (fst vs :: fst r, snd r)) (match_fields fs (snd vs))) (map (fun x : bool * Z * list Z => (snd (fst x), lows (snd x))) l) =
    map (fun x => (snd (fst x), lows (snd x))) (flat_map (fun x => map (fun y => (fst (fst x) :: fst (fst y), snd (fst x) :: snd (fst y), snd y)) (ways bs (snd x))) l)).
  { induction l as [|x l IHl]; intro A; [reflexivity|]. cbn [map flat_map fst snd]. rewrite map_app, IHl by (intros; apply A; right; auto). f_equal.
    rewrite (IH _ (A x (or_introl eq_refl))), !map_map. apply map_ext. intros [[w v] r]. reflexivity. }
  apply K. intros x X. eapply step_nib; eauto.
Qed.
Lemma step_reads p ds w v r : Forall nib ds -> (In (w, v, r) (step p ds) <->
  if w : bool then exists a b, ds = a :: b :: r /\ v = 10 * a + b /\ 0 <= a <= 9 /\ 0 <= b <= 9 /\ fst p <= v <= snd p else ds = v :: r /\ fst p <= v <= 9).
Proof.
  intro F. destruct p as [lo hi]. cbn [fst snd]. destruct F as [|a ds Ha F]; [|destruct F as [|b ds Hb F]]; cbn [step fst snd].
  - split; [contradiction|]. destruct w; [intros (a & b & E & _); discriminate E|intros [E _]; discriminate E].
  - unfold one, nib in *. destruct w.
    + split; [|intros (x & y & E & _); discriminate E]. destruct (_ && _); [intros [E|[]]; discriminate E|contradiction].
    + split.
      * destruct ((lo <=? a) && (a <=? 9)) eqn:T; [intros [[= <- <-]|[]]; split; auto; lia|contradiction].
      * intros ([= <- <-] & H). replace ((lo <=? a) && (a <=? 9)) with true by lia. left. reflexivity.
  - unfold nib in *. rewrite in_app_iff. destruct w.
    + split.
      * intros [H|H]; [|destruct (one _ _); [destruct H as [E|[]]; discriminate E|contradiction]]. unfold two in H. destruct (_ && _) eqn:T; [|contradiction]. destruct H as [[= <- <-]|[]].
        exists a, b. repeat split; auto; lia.
      * intros (x & y & [= <- <- <-] & -> & A & B & C). left. unfold two. replace ((a <=? 9) && (b <=? 9) && (lo <=? 10 * a + b) && (10 * a + b <=? hi)) with true by lia. left. reflexivity.
    + split.
      * intros [H|H]; [destruct (two _ _ _ _); [destruct H as [E|[]]; discriminate E|contradiction]|]. unfold one in H. destruct (_ && _) eqn:T; [|contradiction]. destruct H as [[= <- <-]|[]].
        split; auto. lia.
      * intros ([= <- <-] & A). right. unfold one. replace ((lo <=? a) && (a <=? 9)) with true by lia. left. reflexivity.
Qed.
Lemma ways_reads bs : forall ws ds vs rest, Forall nib ds -> (In (ws, vs, rest) (ways bs ds) <-> reads bs ws ds vs rest).
Proof.
  induction bs as [|[lo hi] bs IH]; intros ws ds vs rest N.
  - cbn. destruct ws; cbn; split.
    + intros [[= <- <-]|[]]. auto.
    + intros [-> ->]. auto.
    + intros [[=]|[]].
    + contradiction.
  - cbn [ways]. rewrite in_flat_map. split.
    + intros ([[w v] r] & Hx & Hy). apply in_map_iff in Hy as ([[ws' vs'] rest'] & [= <- <- <-] & Hy). pose proof (step_nib _ _ _ N Hx) as N'. cbn [snd fst] in *.
      apply (IH _ _ _ _ N') in Hy. apply (step_reads _ _ _ _ _ N) in Hx. cbn [fst snd] in Hx. destruct w; cbn [reads].
      * destruct Hx as (a & b & -> & -> & A & B & C). exists a, b, r, vs'. auto 8.
      * destruct Hx as (-> & C). exists v, r, vs'. auto.
    + destruct ws as [|[] ws]; cbn [reads]; [contradiction| |].
      * intros (a & b & ds' & vs' & -> & -> & A & B & C & H). exists (true, 10 * a + b, ds'). split; [apply step_reads; auto; exists a, b; auto 8|].
        apply in_map_iff. exists (ws, vs', rest). split; auto. apply IH; auto. inversion N as [|? ? ? N2]; inversion N2; subst; auto.
      * intros (a & ds' & vs' & -> & -> & A & H). exists (false, a, ds'). split; [apply step_reads; auto|].
        apply in_map_iff. exists (ws, vs', rest). split; auto. apply IH; auto. inversion N; subst; auto.
Qed.
(** the first is the first *)
Lemma earlier_cons w ws w' ws' : earlier (w :: ws) (w' :: ws') -> w = true /\ w' = false \/ w = w' /\ earlier ws ws'.
Proof.
  intros (p & x & y & E & E'). destruct p as [|c p]; cbn in E, E'; injection E as -> ->; injection E' as -> ->; auto. right. split; auto. exists p, x, y. auto.
Qed.
Lemma step_cases p ds : step p ds = [] \/ (exists w v r, step p ds = [(w, v, r)]) \/ exists v r v' r', step p ds = [(true, v, r); (false, v', r')].
Proof.
  destruct ds as [|a [|b r]]; cbn [step]; auto.
  - destruct (one _ _); eauto 6.
  - destruct (two _ _ _ _), (one _ _); cbn; eauto 8.
Qed.
Lemma ways_first bs : forall ds ws vs rest more, ways bs ds = (ws, vs, rest) :: more -> forall y, In y more -> ~ earlier (fst (fst y)) ws.
Proof.
  induction bs as [|p bs IH]; intros ds ws vs rest more H y Y; cbn [ways] in H.
  - injection H as <- <- <- <-. contradiction.
  - set (f := fun x : bool * Z * list Z => map (fun y => (fst (fst x) :: fst (fst y), snd (fst x) :: snd (fst y), snd y)) (ways bs (snd x))) in *.
    assert (G : forall x l ws vs rest, f x = (ws, vs, rest) :: l -> forall y, In y l -> ~ earlier (fst (fst y)) ws).
    { intros x l ws0 vs0 rest0 E y0 Y0 L. unfold f in E. destruct (ways bs (snd x)) as [|[[w1 v1] r1] more1] eqn:W; cbn [map fst snd] in E; [discriminate E|]. injection E as <- <- <- <-.
      apply in_map_iff in Y0 as (z & <- & Z0). cbn [fst snd] in L. apply earlier_cons in L as [[A B]|[_ L]]; [congruence|]. exact (IH _ _ _ _ _ W _ Z0 L). }
    assert (I : forall x z, In z (f x) -> exists ws, fst (fst z) = fst (fst x) :: ws).
    { intros x z Z0. unfold f in Z0. apply in_map_iff in Z0 as (z0 & <- & _). cbn. eauto. }
    destruct (step_cases p ds) as [E|[(w & v & r & E)|(v & r & v' & r' & E)]]; rewrite E in H; cbn [flat_map] in H.
    + discriminate H.
    + rewrite app_nil_r in H. exact (G _ _ _ _ _ H _ Y).
    + rewrite app_nil_r in H. destruct (f (true, v, r)) as [|[[w1 v1] r1] more1] eqn:T; cbn [List.app] in H; [exact (G _ _ _ _ _ H _ Y)|].
      injection H as <- <- <- <-. apply in_app_iff in Y as [Y|Y]; [exact (G _ _ _ _ _ T _ Y)|].
      destruct (I _ _ Y) as [ws0 ->]. destruct (I (true, v, r) (w1, v1, r1)) as [ws1 E1]; [rewrite T; left; auto|]. cbn [fst snd] in *. subst w1. intro L.
      apply earlier_cons in L as [[A _]|[A _]]; discriminate A.
Qed.
Lemma width_len bs : forall ws ds vs rest, reads bs ws ds vs rest -> length ws = length bs /\ length vs = length bs.
Proof.
  induction bs as [|[lo hi] bs IH]; intros [|[] ws] ds vs rest; cbn [reads]; try contradiction.
  - intros [-> _]. auto.
  - intros (a & b & ds' & vs' & _ & -> & _ & _ & _ & H). destruct (IH _ _ _ _ H). cbn. auto.
  - intros (a & ds' & vs' & _ & -> & _ & H). destruct (IH _ _ _ _ H). cbn. auto.
Qed.
(** same widths, same reading *)
Lemma reads_fun bs : forall ws ds vs rest vs' rest', reads bs ws ds vs rest -> reads bs ws ds vs' rest' -> vs = vs' /\ rest = rest'.
Proof.
  induction bs as [|[lo hi] bs IH]; intros [|[] ws] ds vs rest vs' rest'; cbn [reads]; try contradiction.
  - intros [-> ->] [-> ->]. auto.
  - intros (a & b & ds1 & vs1 & -> & -> & _ & _ & _ & H) (a2 & b2 & ds2 & vs2 & [= <- <- <-] & -> & _ & _ & _ & H'). destruct (IH _ _ _ _ _ _ H H') as [-> ->]. auto.
  - intros (a & ds1 & vs1 & -> & -> & _ & H) (a2 & ds2 & vs2 & [= <- <-] & -> & _ & H'). destruct (IH _ _ _ _ _ _ H H') as [-> ->]. auto.
Qed.
Lemma lengths_compare (w w' : list bool) : length w = length w' -> w = w' \/ earlier w w' \/ earlier w' w.
Proof.
  revert w'. induction w as [|x w IH]; intros [|y w'] L; try discriminate L; auto. injection L as L. destruct (IH w' L) as [->|[(p & u & v & -> & ->)|(p & u & v & -> & ->)]].
  - destruct x, y; auto; right; [left|right]; exists [], w', w'; auto.
  - destruct x, y; right; [left|left|right|left]; solve [exists (true :: p), u, v; auto|exists (false :: p), u, v; auto|eexists [], _, _; split; reflexivity].
  - destruct x, y; right; [right|left|right|right]; solve [exists (true :: p), u, v; auto|exists (false :: p), u, v; auto|eexists [], _, _; split; reflexivity].
Qed.
Definition preferred (bs : list (Z * Z)) (ds : list Z) (ws : list bool) : Prop := forall ws' vs' rest', reads bs ws' ds vs' rest' -> ~ earlier ws' ws.
Lemma ways_head bs ds ws vs rest : Forall nib ds -> ((exists more, ways bs ds = (ws, vs, rest) :: more) <-> reads bs ws ds vs rest /\ preferred bs ds ws).
Proof.
  intro N. split.
  - intros [more E]. split; [apply ways_reads; auto; rewrite E; left; auto|]. intros ws' vs' rest' R L. apply ways_reads in R; auto. rewrite E in R. destruct R as [R|R].
    + injection R as <- _ _. destruct L as (p & x & y & A & B). rewrite A in B. apply app_inv_head in B. discriminate B.
    + exact (ways_first _ _ _ _ _ _ E _ R L).
  - intros [R P]. destruct (ways bs ds) as [|[[w1 v1] r1] more] eqn:E.
    + apply ways_reads in R; auto. rewrite E in R. contradiction.
    + assert (R1 : reads bs w1 ds v1 r1) by (apply ways_reads; auto; rewrite E; left; auto).
      destruct (width_len _ _ _ _ _ R) as [L _]. destruct (width_len _ _ _ _ _ R1) as [L1 _]. destruct (lengths_compare ws w1) as [->|[K|K]]; [congruence| | |].
      * destruct (reads_fun _ _ _ _ _ _ _ R R1) as [-> ->]. eauto.
      * apply ways_reads in R; auto. rewrite E in R. destruct R as [R|R]; [injection R as <- <- <-; eauto|]. exfalso. exact (ways_first _ _ _ _ _ _ E _ R K).
      * exfalso. exact (P _ _ _ R1 K).
Qed.

(** ** strptime and the zone *)
Lemma fields_realized : Forall2 realizes [f_m; f_d; f_H; f_M; f_S] limits.
Proof.
  apply Forall2_cons; [apply realizes_m|]. apply Forall2_cons; [apply realizes_d|]. apply Forall2_cons; [apply realizes_H|]. apply Forall2_cons; [apply realizes_M|].
  apply Forall2_cons; [apply realizes_S|]. apply Forall2_nil.
Qed.
Lemma year_range v : 0 <= v <= 99 -> 1969 <= full_year v <= 2068 /\ full_year v mod 100 = v.
Proof. intro H. unfold full_year. destruct (Z.leb_spec v 68); lia. Qed.
Lemma strptime_exact ds off d : Forall nib ds -> (strptime_ymdHMS (lows ds) off = Ok d <->
  date_read ds (dt_year d) (dt_month d) (dt_day d) (dt_hour d) (dt_minute d) (dt_second d) /\ real_date (dt_year d) (dt_month d) (dt_day d) /\
  real_time (dt_hour d) (dt_minute d) (dt_second d) /\ dt_us d = 0 /\ dt_utcoff d = off).
Proof.
  intro N. unfold strptime_ymdHMS, strptime_fields. cbn [match_fields].
  destruct N as [|a ds Na N]; [|destruct N as [|b ds Nb N]].
  - cbn. split; [discriminate|]. intros ((a & b & ds' & ws & E & _) & _). discriminate E.
  - cbn. split; [discriminate|]. intros ((x & b & ds' & ws & E & _) & _). discriminate E.
  - rewrite (year_field a b ds Na Nb). unfold nib in Na, Nb. destruct ((a <=? 9) && (b <=? 9)) eqn:T.
    2:{ cbn. split; [discriminate|]. intros ((x & y & ds' & ws & [= <- <- <-] & A & B & _) & _). lia. }
    cbn [flat_map fst snd]. rewrite app_nil_r. fold (match_fields [f_m; f_d; f_H; f_M; f_S] (lows ds)). rewrite (match_ways _ _ fields_realized ds N), map_map. cbn [fst snd].
    destruct (year_range (10 * a + b) ltac:(lia)) as [Y1 Y2]. split.
    + intro H. destruct (ways limits ds) as [|[[ws vs] rest] more] eqn:W; [discriminate H|]. cbn [map fst snd] in H. destruct rest as [|x rest]; [|discriminate H]. cbn [lows map] in H.
      destruct (proj1 (ways_head limits ds ws vs [] N)) as [R P]; [eauto|]. destruct (width_len _ _ _ _ _ R) as [_ L]. cbn in L.
      destruct vs as [|mo [|dd [|h [|mi [|s [|]]]]]]; try discriminate L. unfold datetime_new in H. destruct (valid_fields _ _ _ _ _ _) eqn:V; [|discriminate H]. injection H as <-.
      apply valid_fields_spec in V as (_ & V2 & V3). cbn [dt_year dt_month dt_day dt_hour dt_minute dt_second dt_us dt_utcoff]. split; [|auto].
      exists a, b, ds, ws. repeat (split; [auto; lia|]). exact P.
    + intros ((x & y & ds' & ws & [= <- <- <-] & A & B & Y & M & R & P) & D & Ti & U & O).
      destruct (proj2 (ways_head limits ds ws _ [] N) (conj R P)) as [more W]. rewrite W. cbn [map fst snd lows]. unfold datetime_new.
      assert (E : full_year (10 * a + b) = dt_year d) by lia. rewrite E. replace (valid_fields _ _ _ _ _ _) with true; [destruct d; cbn in *; subst; reflexivity|].
      symmetry. apply valid_fields_spec. split; [lia|]. auto.
Qed.
Lemma zone_exact a b x : nib a -> nib b -> (pduOffset [hexdigit_lower a; hexdigit_lower b] = Ok x <-> exists q, zone_read a b q /\ x = td_of_minutes (15 * q)).
Proof.
  intros Na Nb.
  assert (F : pduOffset [hexdigit_lower a; hexdigit_lower b] = if b <=? 9 then Ok (td_of_minutes (15 * (if a <=? 7 then 10 * a + b else - (10 * (a - 8) + b)))) else Err ValueError)
    by (every Na; every Nb; reflexivity).
  rewrite F. unfold nib, zone_read in *. split.
  - destruct (Z.leb_spec b 9); [|discriminate]. intros [= <-]. eexists. split; [|reflexivity]. destruct (Z.leb_spec a 7); lia.
  - intros (q & (B & Q) & ->). replace (b <=? 9) with true by lia. do 3 f_equal. destruct (Z.leb_spec a 7); lia.
Qed.
Lemma last_two {A} (l : list A) : (2 <= length l)%nat -> exists d a b, l = d ++ [a; b].
Proof.
  intro L. destruct (exists_last (l:=l)) as (l1 & b & ->); [intros ->; cbn in L; lia|]. rewrite app_length in L. cbn in L.
  destruct (exists_last (l:=l1)) as (l2 & a & ->); [intros ->; cbn in L; lia|]. exists l2, a, b. rewrite <- app_assoc. reflexivity.
Qed.
Lemma cut_two d a b : drop_last2 (d ++ [a; b]) = d /\ last2 (d ++ [a; b]) = [a; b].
Proof.
  unfold drop_last2, last2. rewrite app_length. cbn [length]. replace (length d + 2 - 2)%nat with (length d) by lia.
  rewrite firstn_app, firstn_all, Nat.sub_diag, skipn_app, skipn_all, Nat.sub_diag. cbn. rewrite app_nil_r. auto.
Qed.
Theorem stamp_exact it t rest : octets_ok it -> (decodeTimestamp it = Ok (t, rest) <-> exists ds, semis 7 it ds rest /\ stamp_read ds t).
Proof.
  intro O. destruct (loop_semis 6 it 0 O) as (ds & rest0 & S0 & N & L). change (0 + Z.of_nat 7) with 7 in L. unfold decodeTimestamp, decodeSemiOctets. rewrite L.
  assert (W : (exists ds0, semis 7 it ds0 rest /\ stamp_read ds0 t) <-> rest0 = rest /\ stamp_read ds t).
  { split; [intros (ds0 & A & B); destruct (semis_fun _ _ _ _ S0 _ _ A) as [-> ->]; auto|intros [<- B]; eauto]. }
  rewrite W. clear W. destruct (Nat.le_gt_cases 2 (length ds)) as [G|G].
  - destruct (last_two ds G) as (date & a & b & ->). apply Forall_app in N as [N N2]. inversion N2 as [|? ? Na N3]; inversion N3 as [|? ? Nb _]; subst.
    unfold lows. rewrite map_app. cbn [map]. destruct (cut_two (map hexdigit_lower date) (hexdigit_lower a) (hexdigit_lower b)) as [-> ->]. split.
    + intro H. destruct (strptime_ymdHMS _ None) as [d|] eqn:E; [|discriminate H]. cbn [bind] in H. destruct (pduOffset _) as [x|] eqn:Z0; [|discriminate H]. cbn [bind] in H. injection H as <- <-.
      apply (strptime_exact date None d N) in E as (D & R & T & U & _). apply (zone_exact a b x Na Nb) in Z0 as (q & Q & ->). split; auto. exists date, a, b, q.
      cbn [dt_year dt_month dt_day dt_hour dt_minute dt_second dt_us dt_utcoff]. auto 10.
    + intros (-> & (date' & a' & b' & q & E & D & R & T & U & Q & X)).
      assert (K : date = date' /\ a = a' /\ b = b').
      { change [a; b] with ([a] ++ [b]) in E. change [a'; b'] with ([a'] ++ [b']) in E. rewrite !app_assoc in E. apply app_inj_tail in E as [E ->]. apply app_inj_tail in E as [-> ->]. auto. }
      destruct K as (-> & -> & ->). set (d := mk_datetime (dt_year t) (dt_month t) (dt_day t) (dt_hour t) (dt_minute t) (dt_second t) 0 None).
      assert (S1 : strptime_ymdHMS (lows date') None = Ok d) by (apply strptime_exact; auto; unfold d; cbn; auto 8). unfold lows in S1. rewrite S1. cbn [bind].
      rewrite (proj2 (zone_exact a' b' (td_of_minutes (15 * q)) Na Nb)) by eauto. cbn. destruct t; cbn in *. subst. reflexivity.
  - assert (D : strptime_ymdHMS (drop_last2 (lows ds)) None = Err ValueError).
    { unfold drop_last2, lows. rewrite map_length. replace (length ds - 2)%nat with 0%nat by lia. reflexivity. }
    rewrite D. cbn. split; [discriminate|]. intros (_ & date & a & b & q & -> & _). rewrite app_length in G. cbn in G. lia.
Qed.

(** ** Whole and cut timestamps *)
Lemma reads_length bs : forall ws ds vs rest, reads bs ws ds vs rest -> length ds = (length rest + length ws + count_occ bool_dec ws true)%nat.
Proof.
  induction bs as [|[lo hi] bs IH]; intros [|[] ws] ds vs rest; cbn [reads]; try contradiction.
  - intros [_ ->]. cbn. lia.
  - intros (a & b & ds' & vs' & -> & _ & _ & _ & _ & H). apply IH in H. cbn. lia.
  - intros (a & ds' & vs' & -> & _ & _ & H). apply IH in H. cbn. lia.
Qed.
Lemma count_le (ws : list bool) : (count_occ bool_dec ws true <= length ws)%nat.
Proof. induction ws as [|[] ws IH]; cbn; lia. Qed.
Lemma all_wide ws : count_occ bool_dec ws true = length ws -> ws = repeat true (length ws).
Proof.
  induction ws as [|[] ws IH]; cbn; auto.
  - intros [= H]. f_equal. auto.
  - intro H. pose proof (count_le ws). lia.
Qed.
Lemma wide_first ws n : ~ earlier ws (repeat true n).
Proof.
  intros (p & x & y & _ & E). assert (I : In false (repeat true n)) by (rewrite E; apply in_app_iff; right; left; auto). apply repeat_spec in I. discriminate I.
Qed.
Lemma whole_date a1 b1 a2 b2 a3 b3 a4 b4 a5 b5 a6 b6 y mo d h mi s :
  date_read [a1; b1; a2; b2; a3; b3; a4; b4; a5; b5; a6; b6] y mo d h mi s <->
  (1969 <= y <= 2068 /\ y mod 100 = 10 * a1 + b1 /\ mo = 10 * a2 + b2 /\ d = 10 * a3 + b3 /\ h = 10 * a4 + b4 /\ mi = 10 * a5 + b5 /\ s = 10 * a6 + b6) /\
  Forall (fun v => 0 <= v <= 9) [a1; b1; a2; b2; a3; b3; a4; b4; a5; b5; a6; b6] /\ 1 <= mo <= 12 /\ 1 <= d <= 31 /\ 0 <= h <= 23 /\ 0 <= mi <= 59 /\ 0 <= s <= 61.
Proof.
  split.
  - intros (a & b & ds' & ws & [= <- <- <-] & A & B & Y & M & R & _). pose proof (reads_length _ _ _ _ _ R) as L. destruct (width_len _ _ _ _ _ R) as [W _]. cbn in L, W.
    assert (E : ws = repeat true 5) by (rewrite <- W; apply all_wide; lia). subst ws. cbn [repeat reads limits] in R.
    destruct R as (? & ? & ? & ? & [= <- <- <-] & [= -> <-] & ? & ? & ? & R). destruct R as (? & ? & ? & ? & [= <- <- <-] & [= -> <-] & ? & ? & ? & R).
    destruct R as (? & ? & ? & ? & [= <- <- <-] & [= -> <-] & ? & ? & ? & R). destruct R as (? & ? & ? & ? & [= <- <- <-] & [= -> <-] & ? & ? & ? & R).
    destruct R as (? & ? & ? & ? & [= <- <- <-] & [= -> <-] & ? & ? & ? & _). split; [auto 10|]. split; [do 12 (apply Forall_cons; auto)|auto 8].
  - intros ((Y & M & -> & -> & -> & -> & ->) & F & ? & ? & ? & ? & ?).
    repeat (match goal with X : Forall _ (_ :: _) |- _ => inversion X; clear X; subst end).
    exists a1, b1, [a2; b2; a3; b3; a4; b4; a5; b5; a6; b6], (repeat true 5). do 5 (split; [solve [auto]|]). split; [|intros; apply wide_first].
    cbn [repeat reads limits]. do 5 (do 4 eexists; split; [reflexivity|]; split; [reflexivity|]; split; [auto|]; split; [auto|]; split; [auto|]). auto.
Qed.
Lemma semis_seven o1 o2 o3 o4 o5 o6 o7 rest : Forall (fun o => o / 16 <> 15) [o1; o2; o3; o4; o5; o6; o7] ->
  semis 7 ([o1; o2; o3; o4; o5; o6; o7] ++ rest) [o1 mod 16; o1 / 16; o2 mod 16; o2 / 16; o3 mod 16; o3 / 16; o4 mod 16; o4 / 16; o5 mod 16; o5 / 16; o6 mod 16; o6 / 16; o7 mod 16; o7 / 16] rest.
Proof. intro F. repeat (match goal with X : Forall _ (_ :: _) |- _ => inversion X; clear X; subst end). cbn [List.app]. do 7 (apply se_two; auto). apply se_full. Qed.

Lemma stamp_octets t q : sms_time t q -> octets_ok (ts23040_timestamp (dt_year t) (dt_month t) (dt_day t) (dt_hour t) (dt_minute t) (dt_second t) q).
Proof.
  intros (Hy & Hd & (Hh & Hmi & Hs) & Hus & Hq & Ho). pose proof (real_date_bounds _ _ _ Hd) as [Hm Hd']. unfold ts23040_timestamp, swapped_bcd.
  do 6 (apply Forall_cons; [lia|]). apply Forall_cons; [|apply Forall_nil]. destruct (q <? 0) eqn:Q; lia.
Qed.
(** seven octets without a filler *)
Theorem stamp_whole os rest t : length os = 7%nat -> octets_ok (os ++ rest) -> Forall (fun o => o / 16 <> 15) os -> (decodeTimestamp (os ++ rest) = Ok (t, rest) <->
  exists q a b, sms_time t q /\ os = firstn 6 (ts23040_timestamp (dt_year t) (dt_month t) (dt_day t) (dt_hour t) (dt_minute t) (dt_second t) q) ++ [a + 16 * b] /\ zone_read a b q).
Proof.
  intros L O F. rewrite (stamp_exact _ _ _ O). destruct os as [|o1 [|o2 [|o3 [|o4 [|o5 [|o6 [|o7 [|]]]]]]]]; try discriminate L. pose proof (semis_seven _ _ _ _ _ _ _ rest F) as S7.
  apply Forall_app in O as [O _]. split.
  - intros (ds & S1 & date & a & b & q & E & D & R & T & U & Z0 & X). destruct (semis_fun _ _ _ _ S7 _ _ S1) as [E1 _]. rewrite E in E1. clear E S1 S7.
    assert (K : date = [o1 mod 16; o1 / 16; o2 mod 16; o2 / 16; o3 mod 16; o3 / 16; o4 mod 16; o4 / 16; o5 mod 16; o5 / 16; o6 mod 16; o6 / 16] /\ a = o7 mod 16 /\ b = o7 / 16).
    { change [o1 mod 16; o1 / 16; o2 mod 16; o2 / 16; o3 mod 16; o3 / 16; o4 mod 16; o4 / 16; o5 mod 16; o5 / 16; o6 mod 16; o6 / 16; o7 mod 16; o7 / 16] with
        (([o1 mod 16; o1 / 16; o2 mod 16; o2 / 16; o3 mod 16; o3 / 16; o4 mod 16; o4 / 16; o5 mod 16; o5 / 16; o6 mod 16; o6 / 16] ++ [o7 mod 16]) ++ [o7 / 16]) in E1.
      change [a; b] with ([a] ++ [b]) in E1. rewrite app_assoc in E1. apply app_inj_tail in E1 as [E1 E2]. apply app_inj_tail in E1 as [E1 E3]. auto. }
    destruct K as (-> & -> & ->). apply whole_date in D as ((Y & Y1 & M & D & H & Mi & Se) & G & _).
    repeat (match goal with X : Forall _ (_ :: _) |- _ => inversion X; clear X; subst end).
    exists q, (o7 mod 16), (o7 / 16). split; [|split; auto].
    + split; [lia|]. split; auto. split; auto. split; auto. split; auto. unfold zone_read in Z0. lia.
    + unfold ts23040_timestamp, swapped_bcd. cbn [firstn List.app]. repeat (f_equal; [lia|]). f_equal. lia.
  - intros (q & a & b & (Y & R & T & U & Q & X) & E & Z0). eexists. split; [exact S7|]. exists [o1 mod 16; o1 / 16; o2 mod 16; o2 / 16; o3 mod 16; o3 / 16; o4 mod 16; o4 / 16; o5 mod 16; o5 / 16; o6 mod 16; o6 / 16], a, b, q.
    pose proof (real_date_bounds _ _ _ R) as [Hm Hd]. destruct T as (Th & Tm & Ts). unfold ts23040_timestamp, swapped_bcd in E. cbn [firstn List.app] in E. injection E as -> -> -> -> -> -> ->. clear S7 F O L.
    split; [|split; [|unfold real_time; auto 8]].
    + unfold zone_read in Z0. replace ((a + 16 * b) mod 16) with a by lia. replace ((a + 16 * b) / 16) with b by lia. reflexivity.
    + apply whole_date. split; [|split; [|lia]].
      * repeat (split; [lia|]). lia.
      * do 12 (apply Forall_cons; [lia|]). apply Forall_nil.
Qed.
Lemma earlier_wide_count ws p y : earlier ws (p ++ false :: y) -> p = repeat true (length p) -> (forall b, In b y -> b = false) -> length ws = length (p ++ false :: y) -> (length p < count_occ bool_dec ws true)%nat.
Proof.
  intros (p' & x & y' & -> & E) P F _.
  assert (C : forall n, count_occ bool_dec (repeat true n) true = n) by (induction n; cbn; auto).
  assert (K : exists r, p' = p ++ r).
  { clear - E P. revert p' E. induction p as [|c p IH]; intros p' E; [exists p'; auto|]. cbn in P. injection P as -> P. destruct p' as [|c' p']; cbn in E; [discriminate E|]. injection E as <- E.
    destruct (IH P p' E) as [r ->]. exists r. auto. }
  destruct K as [r ->]. rewrite !count_occ_app. rewrite P at 2. rewrite C. cbn. destruct (bool_dec true true); [|congruence]. lia.
Qed.
(** the zone octet is missing *)
Theorem stamp_short t q : sms_time t q -> exists t', decodeTimestamp (firstn 6 (ts23040_timestamp (dt_year t) (dt_month t) (dt_day t) (dt_hour t) (dt_minute t) (dt_second t) q)) = Ok (t', []) /\
  same_hour t t' (dt_minute t / 10) (dt_minute t mod 10) (dt_second t).
Proof.
  intros (Y & R & (Th & Tm & Ts) & U & Q & X). pose proof (real_date_bounds _ _ _ R) as [Hm Hd].
  exists (mk_datetime (dt_year t) (dt_month t) (dt_day t) (dt_hour t) (dt_minute t / 10) (dt_minute t mod 10) 0 (Some (td_of_minutes (15 * dt_second t)))).
  split; [|repeat split]. unfold ts23040_timestamp, swapped_bcd. cbn [firstn].
  destruct t as [y mo d h mi s u z]. cbn [dt_year dt_month dt_day dt_hour dt_minute dt_second dt_us dt_utcoff] in *.
  apply stamp_exact.
  { do 6 (apply Forall_cons; [lia|]). apply Forall_nil. }
  exists [y mod 100 / 10; y mod 100 mod 10; mo / 10; mo mod 10; d / 10; d mod 10; h / 10; h mod 10; mi / 10; mi mod 10; s / 10; s mod 10]. split.
  - assert (K : forall n v it ds r, 0 <= v <= 99 -> semis n it ds r -> semis (S n) (v / 10 + 16 * (v mod 10) :: it) (v / 10 :: v mod 10 :: ds) r).
    { intros n v it ds r V H. replace (v / 10) with ((v / 10 + 16 * (v mod 10)) mod 16) at 2 by lia. replace (v mod 10) with ((v / 10 + 16 * (v mod 10)) / 16) at 3 by lia. apply se_two; auto. lia. }
    do 6 (apply K; [lia|]). apply se_end.
  - exists [y mod 100 / 10; y mod 100 mod 10; mo / 10; mo mod 10; d / 10; d mod 10; h / 10; h mod 10; mi / 10; mi mod 10], (s / 10), (s mod 10), s.
    cbn [dt_year dt_month dt_day dt_hour dt_minute dt_second dt_us dt_utcoff]. split; [reflexivity|]. split; [|split; [auto|split; [unfold real_time; lia|split; [auto|split; [unfold zone_read; lia|auto]]]]].
    exists (y mod 100 / 10), (y mod 100 mod 10), [mo / 10; mo mod 10; d / 10; d mod 10; h / 10; h mod 10; mi / 10; mi mod 10], [true; true; true; false; false].
    split; [reflexivity|]. split; [lia|]. split; [lia|]. split; [lia|]. split; [lia|]. split.
    + cbn [reads limits]. do 3 (do 4 eexists; split; [reflexivity|]; split; [f_equal; lia|]; split; [lia|]; split; [lia|]; split; [lia|]).
      do 2 (do 3 eexists; split; [reflexivity|]; split; [reflexivity|]; split; [lia|]). auto.
    + intros ws' vs' rest' R' Ea. pose proof (reads_length _ _ _ _ _ R') as Le. destruct (width_len _ _ _ _ _ R') as [W _]. cbn in Le, W.
      assert (3 < count_occ bool_dec ws' true)%nat; [|lia].
      apply (earlier_wide_count ws' [true; true; true] [false]); auto. intros b [<-|[]]. auto.
Qed.
(** the zone octet has a filler *)
Theorem stamp_filled t q z rest : sms_time t q -> 0 <= z <= 15 -> octets_ok rest ->
  (z <= 9 -> exists t' q', zone_read (dt_second t mod 10) z q' /\ same_hour t t' (dt_minute t) (dt_second t / 10) q' /\
     decodeTimestamp (firstn 6 (ts23040_timestamp (dt_year t) (dt_month t) (dt_day t) (dt_hour t) (dt_minute t) (dt_second t) q) ++ z + 240 :: rest) = Ok (t', rest)) /\
  (9 < z -> decodeTimestamp (firstn 6 (ts23040_timestamp (dt_year t) (dt_month t) (dt_day t) (dt_hour t) (dt_minute t) (dt_second t) q) ++ z + 240 :: rest) = Err ValueError).
Proof.
  intros (Y & R & (Th & Tm & Ts) & U & Q & X) Hz Or. pose proof (real_date_bounds _ _ _ R) as [Hm Hd]. unfold ts23040_timestamp, swapped_bcd. cbn [firstn List.app].
  destruct t as [y mo d h mi s u zz]. cbn [dt_year dt_month dt_day dt_hour dt_minute dt_second dt_us dt_utcoff] in *.
  match goal with |- context [decodeTimestamp ?i] => set (it := i) end.
  assert (O : octets_ok it) by (unfold it; do 7 (apply Forall_cons; [lia|]); auto).
  assert (S1 : semis 7 it ([y mod 100 / 10; y mod 100 mod 10; mo / 10; mo mod 10; d / 10; d mod 10; h / 10; h mod 10; mi / 10; mi mod 10; s / 10] ++ [s mod 10; z]) rest).
  { assert (K : forall n v it ds r, 0 <= v <= 99 -> semis n it ds r -> semis (S n) (v / 10 + 16 * (v mod 10) :: it) (v / 10 :: v mod 10 :: ds) r).
    { intros n v it0 ds r V H. replace (v / 10) with ((v / 10 + 16 * (v mod 10)) mod 16) at 2 by lia. replace (v mod 10) with ((v / 10 + 16 * (v mod 10)) / 16) at 3 by lia. apply se_two; auto. lia. }
    unfold it. cbn [List.app]. do 6 (apply K; [lia|]). replace z with ((z + 240) mod 16) at 2 by lia. apply se_filler. lia. }
  split; intro Z9.
  - exists (mk_datetime y mo d h mi (s / 10) 0 (Some (td_of_minutes (15 * (if s mod 10 <=? 7 then 10 * (s mod 10) + z else - (10 * (s mod 10 - 8) + z)))))), (if s mod 10 <=? 7 then 10 * (s mod 10) + z else - (10 * (s mod 10 - 8) + z)).
    assert (Z0 : zone_read (s mod 10) z (if s mod 10 <=? 7 then 10 * (s mod 10) + z else - (10 * (s mod 10 - 8) + z))) by (unfold zone_read; destruct (Z.leb_spec (s mod 10) 7); lia).
    split; auto. split; [repeat split|]. apply stamp_exact; auto. eexists. split; [exact S1|]. do 4 eexists. split; [reflexivity|].
    cbn [dt_year dt_month dt_day dt_hour dt_minute dt_second dt_us dt_utcoff]. split; [|split; [auto|split; [unfold real_time; lia|split; [auto|split; [exact Z0|auto]]]]].
    exists (y mod 100 / 10), (y mod 100 mod 10), [mo / 10; mo mod 10; d / 10; d mod 10; h / 10; h mod 10; mi / 10; mi mod 10; s / 10], [true; true; true; true; false].
    split; [reflexivity|]. split; [lia|]. split; [lia|]. split; [lia|]. split; [lia|]. split.
    + cbn [reads limits]. do 4 (do 4 eexists; split; [reflexivity|]; split; [f_equal; lia|]; split; [lia|]; split; [lia|]; split; [lia|]).
      do 3 eexists; split; [reflexivity|]; split; [reflexivity|]; split; [lia|]. auto.
    + intros ws' vs' rest' R' Ea. pose proof (reads_length _ _ _ _ _ R') as Le. destruct (width_len _ _ _ _ _ R') as [W _]. cbn in Le, W.
      assert (4 < count_occ bool_dec ws' true)%nat; [|lia].
      apply (earlier_wide_count ws' [true; true; true; true] []); auto. intros b [].
  - destruct (decodeTimestamp_inv it O) as [E|(t & r & q' & k & E & _)]; auto. exfalso. apply stamp_exact in E as (ds & S2 & date & a & b & q2 & E & _ & _ & _ & _ & Z0 & _); auto.
    destruct (semis_fun _ _ _ _ S1 _ _ S2) as [E1 _]. rewrite E in E1. change [s mod 10; z] with ([s mod 10] ++ [z]) in E1. change [a; b] with ([a] ++ [b]) in E1. rewrite !app_assoc in E1.
    apply app_inj_tail in E1 as [_ <-]. unfold zone_read in Z0. lia.
Qed.
