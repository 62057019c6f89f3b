(** Proofs about sendDtmfTone. *)
From Verif Require Import Base ModemCore ModemSpec WriteProofs MonadProofs SendSpec SendProofs TrackSpec CallModel CallSpec.

Lemma format_char c r args : c <> 123 -> c <> 125 -> py_format (c :: r) args = bind (py_format r args) (fun s => Ok (c :: s)).
Proof.
  intros N1 N2. cbn [py_format]. destruct (Z.eqb_spec c 123); [contradiction|]. destruct (Z.eqb_spec c 125); [contradiction|]. reflexivity.
Qed.
Lemma format_text t args s r : no_brace t -> py_format s args = Ok r -> py_format (t ++ s) args = Ok (t ++ r).
Proof.
  intros [N1 N2] H. induction t as [|c t IH]; cbn [app]; auto.
  rewrite format_char. 
  - rewrite IH; auto; intro I; [apply N1|apply N2]; right; auto.
  - intros ->; apply N1; left; auto.
  - intros ->; apply N2; left; auto.
Qed.
Lemma format_field0 base t0 s r : py_format s [base; t0] = Ok r -> py_format (lit "{0}" ++ s) [base; t0] = Ok (base ++ r).
Proof. intro H. cbn. rewrite H. reflexivity. Qed.
Lemma format_field1 base t0 s r : py_format s [base; t0] = Ok r -> py_format (lit "{1}" ++ s) [base; t0] = Ok (t0 ++ r).
Proof. intro H. cbn. rewrite H. reflexivity. Qed.

Lemma format_join base t0 rest : rest <> [] -> no_brace rest -> exists s, tone_list base rest (base ++ s) /\
  py_format (join (lit ";{0}") (map (fun c => [c]) rest)) [base; t0] = Ok s.
Proof.
  induction rest as [|t rest IH]; intros N [B1 B2]; [tauto|]. destruct rest as [|t' rest].
  - exists [t]. split; [constructor|]. cbn [map join]. rewrite format_char; auto; intros ->; [apply B1|apply B2]; left; auto.
  - destruct IH as (s & T & F); [discriminate|split; intro I; [apply B1|apply B2]; right; auto|].
    exists (t :: 59 :: base ++ s). split; [constructor; auto|].
    change (join (lit ";{0}") (map (fun c => [c]) (t :: t' :: rest))) with ([t; 59] ++ lit "{0}" ++ join (lit ";{0}") (map (fun c => [c]) (t' :: rest))).
    rewrite (format_text _ _ _ (base ++ s)); auto.
    + split; cbn; intros [E|[E|[]]]; try discriminate; subst; [apply B1|apply B2]; left; auto.
    + apply format_field0. auto.
Qed.
Lemma command_text base tones : tones <> [] -> no_brace tones -> exists s, tone_list base tones s /\ dtmf_command base tones = Ok (lit "AT" ++ s).
Proof.
  intros N B. destruct tones as [|t0 [|t1 rest]]; [tauto| |].
  - exists (base ++ [t0]). split; [constructor|]. unfold dtmf_command.
    change (lit "AT{0}{1}") with (lit "AT" ++ lit "{0}" ++ lit "{1}" ++ []). apply format_text; [split; cbn; intuition discriminate|].
    apply format_field0. change [t0] with ([t0] ++ []) at 2. apply format_field1. auto.
  - destruct (format_join base [t0] (t1 :: rest)) as (s & T & F); [discriminate|destruct B as [B1 B2]; split; intro I; [apply B1|apply B2]; right; auto|].
    exists (base ++ t0 :: 59 :: base ++ s). split; [constructor; auto|]. unfold dtmf_command.
    change (lit "AT{0}{1};{0}" ++ join (lit ";{0}") (map (fun c => [c]) (t1 :: rest))) with
      (lit "AT" ++ lit "{0}" ++ lit "{1}" ++ [59] ++ lit "{0}" ++ join (lit ";{0}") (map (fun c => [c]) (t1 :: rest))).
    apply format_text; [split; cbn; intuition discriminate|]. apply format_field0.
    change (t0 :: 59 :: base ++ s) with ([t0] ++ [59] ++ base ++ s). apply format_field1. apply format_text; [split; cbn; intuition discriminate|].
    apply format_field0. auto.
Qed.
Lemma base_is m id : 0 <= id -> tone_base (dtmfHuawei m) id (dtmf_base m id).
Proof. intro H. unfold tone_base, dtmf_base. destruct (dtmfHuawei m); auto. exists (str_of_Z id). split; auto. apply str_of_Z_decimal; auto. Qed.

Lemma cme_outcome data r e code : outcome data r (Err e) -> cme_code e = Some code -> code = 30 \/ code = 3 -> e = CmeError data code.
Proof.
  intros O C K. inversion O as [|l ls| |ls line G|ls line kind c e' Cm NB Ef|ls line El Nc|ls]; subst; try discriminate.
  inversion Ef; subst; cbn in C; try discriminate C; assert (E : forall a b : Z, Some a = Some b -> a = b) by congruence; apply E in C; subst; auto; lia.
Qed.
Theorem tones_sent n tones m sc c x w : nth_error (callObjs m) n = Some c -> c_answered c = true -> 0 <= c_id c -> tones <> [] -> no_brace tones ->
  sendDtmfTone n tones (start m sc) = Done x w ->
  exists base s y, tone_base (dtmfHuawei m) (c_id c) base /\ tone_list base tones s /\ exchange (lit "AT" ++ s) [13] (trace w) y /\ tone_result y x.
Proof.
  intros Nt An Hid N B H. unfold sendDtmfTone, mbind at 1, get in H. cbn [start dev] in H.
  assert (Ec : the_call m n = c) by (apply nth_error_nth; auto). rewrite Ec, An in H.
  destruct (command_text (dtmf_base m (c_id c)) tones N B) as (s & T & Cm). rewrite Cm in H. unfold mbind at 1, lift in H.
  exists (dtmf_base m (c_id c)), s. unfold try_except in H.
  destruct ((write (lit "AT" ++ s) ;;; ret tt) (start m sc)) as [y0 w0|w0] eqn:R; [|discriminate].
  assert (R' : exists y, write (lit "AT" ++ s) (start m sc) = Done y w0 /\ y0 = match y with Ok _ => Ok tt | Err e => Err e end).
  { apply bind_done in R as [(a & w1 & R1 & R2)|(e & R1 & ->)]; [|exists (Err e); auto]. injection R2 as <- <-. exists (Ok a). auto. }
  destruct R' as (y & W & ->). exists y. split; [apply base_is; auto|]. split; auto. apply write_done in W. pose proof W as W0.
  destruct W as (busy & codes & r & Es & Bu & Nb & O & Dv & Tr). cbn [start script dev trace app] in *.
  assert (E : exchange (lit "AT" ++ s) [13] (trace w0) y). { rewrite Tr. exists (writeWait m), busy, codes, r. auto. }
  destruct y as [a|e].
  - injection H as <- <-. split; auto. constructor.
  - destruct (cme_code e) as [code|] eqn:Ce.
    + destruct (code =? 30) eqn:E30; [|destruct (code =? 3) eqn:E3].
      * apply Z.eqb_eq in E30 as ->. unfold raise in H. injection H as <- <-. split; auto. rewrite (cme_outcome _ _ _ _ O Ce); auto. constructor. auto.
      * apply Z.eqb_eq in E3 as ->. unfold raise in H. injection H as <- <-. split; auto. rewrite (cme_outcome _ _ _ _ O Ce); auto. constructor. auto.
      * injection H as <- <-. split; auto. constructor. intros c' code' ->. cbn in Ce. injection Ce as ->. lia.
    + injection H as <- <-. split; auto. constructor. intros c' code' ->. discriminate.
Qed.
Theorem tones_refused n tones m sc c : nth_error (callObjs m) n = Some c -> c_answered c = false ->
  sendDtmfTone n tones (start m sc) = Done (Err InvalidStateException) (start m sc).
Proof.
  intros Nt An. unfold sendDtmfTone, mbind at 1, get. cbn [start dev].
  assert (Ec : the_call m n = c) by (apply nth_error_nth; auto). rewrite Ec, An. reflexivity.
Qed.
