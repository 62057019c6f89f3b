From Verif Require Import Base SerialModel SerialSpec SerialProofs BytesModel BytesSpec ModemCore ConnectModel TrackSpec.

Lemma str_eqb_bytes d : datum_eqb (as_bytes d) (DStr []) = false. Proof. reflexivity. Qed.
Definition all_bytes (l : list datum) : Prop := Forall (fun d => exists b, d = DBytes b) l.
Lemma bytes_neq l s : all_bytes l -> s <> [] -> data_eqb l (chars s) = false.
Proof. intros A N. destruct s as [|c s]; [congruence|]. destruct A as [|d l (b & ->) A]; reflexivity. Qed.
Lemma tail_bytes n l : all_bytes l -> all_bytes (tail_of n l).
Proof. unfold tail_of, all_bytes. intro A. rewrite Forall_forall in *. intros x I. apply A. rewrite <- (firstn_skipn (length l - n) l). apply in_or_app. auto. Qed.
Theorem bytes_kept buf input : all_bytes buf -> (forall x, In x input -> fst x <> Some []) ->
  read_data buf (map (fun x => (fst x, as_bytes (snd x))) input) = ([], Ok (buf ++ map (fun x => as_bytes (snd x)) input)).
Proof.
  revert buf. induction input as [|[expect d] input IH]; intros buf A N; [cbn; rewrite app_nil_r; reflexivity|].
  cbn [map read_data fst snd]. assert (N1 : expect <> Some []) by (apply (N (expect, d)); left; reflexivity). assert (A' : all_bytes (buf ++ [as_bytes d])) by (apply Forall_app; split; [exact A|constructor; [eexists; reflexivity|constructor]]).
  assert (E : read_datum expect buf (as_bytes d) = Ok (buf ++ [as_bytes d], None)).
  { unfold read_datum. rewrite str_eqb_bytes, bytes_neq by (try apply tail_bytes; auto; discriminate). destruct expect as [e|]; [|reflexivity].
    rewrite bytes_neq by (try apply tail_bytes; auto; congruence). reflexivity. }
  rewrite E, IH by (try exact A'; intros x I; apply N; right; exact I). rewrite <- app_assoc. reflexivity.
Qed.

(** with strings it is the loop of SerialModel *)
Lemma chars_app a b : chars (a ++ b) = chars a ++ chars b. Proof. apply map_app. Qed.
Lemma chars_eqb a : forall b, data_eqb (chars a) (chars b) = str_eqb a b.
Proof.
  induction a as [|x a IH]; intros [|y b]; try reflexivity. cbn [chars map data_eqb datum_eqb]. fold (chars a) (chars b). rewrite IH. cbn. rewrite andb_true_r. reflexivity.
Qed.
Lemma chars_tail n s : tail_of n (chars s) = chars (skipn (length s - n) s).
Proof. unfold tail_of, chars. rewrite map_length, skipn_map. reflexivity. Qed.
Lemma chars_front n s : front_of n (chars s) = chars (firstn (length s - n) s).
Proof. unfold front_of, chars. rewrite map_length, firstn_map. reflexivity. Qed.
Lemma chars_join s : join_all (chars s) = Ok s.
Proof. induction s as [|c s IH]; [reflexivity|]. cbn [chars map join_all]. fold (chars s). rewrite IH. reflexivity. Qed.
Theorem strings_read expect buf input : read_data (chars buf) (map (fun d => (expect, as_str d)) input) =
  let '(calls, rest) := rx_run expect buf input in (calls, Ok (chars rest)).
Proof.
  revert buf. induction input as [|d input IH]; intro buf; [reflexivity|]. cbn [map read_data rx_run].
  assert (E : read_datum expect (chars buf) (as_str d) = Ok (chars (fst (rx_step expect buf d)), snd (rx_step expect buf d))).
  { destruct d as [c|]; [|reflexivity]. unfold read_datum, rx_step, as_str. cbn [datum_eqb str_eqb].
    change (chars buf ++ [DStr [c]]) with (chars buf ++ chars [c]). rewrite <- chars_app, chars_tail, chars_eqb, chars_front, chars_join.
    unfold ends_with. change (length RX_EOL_SEQ) with 2%nat. destruct (str_eqb (skipn (length (buf ++ [c]) - 2) (buf ++ [c])) RX_EOL_SEQ); [reflexivity|].
    destruct expect as [e|]; [|reflexivity]. rewrite chars_tail, chars_eqb. destruct (str_eqb _ e); [|reflexivity]. rewrite chars_join. reflexivity. }
  rewrite E. destruct (rx_step expect buf d) as [b o]. cbn [fst snd]. rewrite IH. destruct (rx_run expect b input) as [calls rest]. destruct o; reflexivity.
Qed.

(** a bytes object among strings *)
Lemma tail_two (l : list datum) x y : tail_of 2 (l ++ [x; y]) = [x; y].
Proof. unfold tail_of. rewrite app_length. cbn [length]. replace (length l + 2 - 2)%nat with (length l) by lia. rewrite skipn_app, skipn_all, Nat.sub_diag. reflexivity. Qed.
Lemma front_two (l : list datum) x y : front_of 2 (l ++ [x; y]) = l.
Proof. unfold front_of. rewrite app_length. cbn [length]. replace (length l + 2 - 2)%nat with (length l) by lia. rewrite firstn_app, firstn_all, Nat.sub_diag. apply app_nil_r. Qed.
Definition after_cr (l : list datum) : Prop := exists l', l = l' ++ [DStr [13]].
Lemma datum_char a c : datum_eqb a (DStr [c]) = true -> a = DStr [c].
Proof. destruct a as [s|s]; [|discriminate]. cbn. intro E. apply str_eqb_true in E. congruence. Qed.
Lemma char_kept l c : ~ (after_cr l /\ c = 10) -> read_datum None l (DStr [c]) = Ok (l ++ [DStr [c]], None).
Proof.
  intro N. unfold read_datum. cbn [datum_eqb str_eqb list_eqb]. destruct (data_eqb (tail_of 2 (l ++ [DStr [c]])) (chars RX_EOL_SEQ)) eqn:E; [|reflexivity].
  exfalso. apply N. destruct l as [|z l _] using rev_ind; [apply andb_prop in E as [_ E]; discriminate|]. rewrite <- app_assoc in E. cbn [app] in E. rewrite tail_two in E.
  cbn [chars map RX_EOL_SEQ data_eqb] in E. apply andb_prop in E as [E1 E2]. apply andb_prop in E2 as [E2 _]. apply datum_char in E1, E2. subst. injection E2 as ->.
  split; [exists l; reflexivity|reflexivity].
Qed.
Lemma strings_kept s : ~ occurs crlf s -> forall l rest, (after_cr l -> hd 0 s <> 10) -> read_data l (as_strings s ++ rest) = read_data (l ++ chars s) rest.
Proof.
  induction s as [|c s IH]; intros N l rest H; [cbn; rewrite app_nil_r; reflexivity|]. cbn [as_strings map app read_data].
  rewrite char_kept by (intros [A ->]; apply H; auto). fold (as_strings s). rewrite IH.
  - rewrite <- app_assoc. cbn [app chars map]. destruct (read_data _ rest). reflexivity.
  - intros (a & b & ->). apply N. exists (c :: a), b. reflexivity.
  - intros (l' & E) Hd. apply app_inj_tail in E as [_ E]. injection E as ->. destruct s as [|d s]; [discriminate|]. cbn in Hd. subst d. apply N. exists [], s. reflexivity.
Qed.
Lemma bytes_no_cr l b : ~ after_cr (l ++ [DBytes b]).
Proof. intros (l' & E). apply app_inj_tail in E as [_ E]. discriminate. Qed.
Lemma join_bytes l b l' : join_all (l ++ DBytes b :: l') = Err TypeError.
Proof. induction l as [|[s|c] l IH]; cbn [app join_all]; auto. rewrite IH. reflexivity. Qed.
Theorem mixed_dies before b after rest : ~ occurs crlf before -> ~ occurs crlf after ->
  read_data [] (as_strings before ++ (None, DBytes b) :: as_strings (after ++ crlf) ++ rest) = ([], Err TypeError).
Proof.
  intros Nb Na. rewrite strings_kept by (auto; intros (l & E); destruct l; discriminate). cbn [app read_data].
  assert (K : read_datum None (chars before) (DBytes b) = Ok (chars before ++ [DBytes b], None)).
  { unfold read_datum. cbn [datum_eqb]. destruct (data_eqb _ _) eqn:E; [|reflexivity]. exfalso. destruct (chars before) as [|z l _] using rev_ind; [discriminate|].
    rewrite <- app_assoc in E. cbn [app] in E. rewrite tail_two in E. cbn [chars map RX_EOL_SEQ data_eqb datum_eqb] in E. rewrite andb_false_r in E. discriminate. }
  rewrite K. unfold as_strings. rewrite map_app, <- app_assoc. fold (as_strings after). rewrite strings_kept by (auto; intro A; destruct (bytes_no_cr _ _ A)).
  cbn [crlf map app read_data].
  assert (C13 : forall l, read_datum None l (DStr [13]) = Ok (l ++ [DStr [13]], None)) by (intro l; apply char_kept; intros [_ E]; discriminate).
  rewrite C13. assert (D : read_datum None (((chars before ++ [DBytes b]) ++ chars after) ++ [DStr [13]]) (DStr [10]) = Err TypeError).
  { unfold read_datum. cbn [datum_eqb str_eqb list_eqb]. rewrite <- (app_assoc _ [DStr [13]]). cbn [app]. rewrite tail_two, front_two. cbn [chars map RX_EOL_SEQ data_eqb datum_eqb]. 
    change (str_eqb [13] [13] && (str_eqb [10] [10] && true)) with true. cbv iota. rewrite <- app_assoc. cbn [app]. rewrite join_bytes. reflexivity. }
  rewrite D. reflexivity.
Qed.

(** a read thread that reads nothing *)
Definition quiet_state (s : sstate) : Prop :=
  reader s = RIdle [] /\ notif s = [] /\ (forall e, is_set s e = false) /\ (forall r, heap s r = []) /\
  forall i, writer s i <> WClrEvt true /\ writer s i <> WClrExp true /\ writer s i <> WRet true.
Definition quiet_label (l : label) : Prop :=
  match l with LReturn _ _ | LChar _ | LLine _ _ | LAppend _ _ | LNotify _ | LCallback _ | LDied _ => False | LTimeout _ ls => ls = [] | _ => True end.
Lemma quiet_act s a s' l : quiet_state s -> match a with ARead i => in_char i = None | AWrite _ _ => True end -> act s a = Some (s', l) -> quiet_state s' /\ quiet_label l.
Proof.
  intros (R & N & S & H & W) Q E. destruct a as [i|i w]; cbn [act] in E.
  - unfold read_step in E. rewrite R, Q in E. injection E as <- <-. split; [|exact I]. repeat split; auto; apply W.
  - unfold write_step in E. pose proof (W i) as Wi.
    destruct (writer s i) as [|op|op|op|op| |e|ok|ok|ok|op| |] eqn:P;
      repeat match type of E with context [match ?x with _ => _ end] => lazymatch x with context [match _ with _ => _ end] => fail | _ => destruct x eqn:?; try discriminate E end end; try discriminate E; injection E as <- <-;
      try (rewrite S in *; discriminate); try (destruct Wi as (? & ? & ?); congruence).
    all: split; [|cbn; auto; fail]; split; [exact R|]; split; [exact N|]; split; [intro e0; cbn; unfold upd; try destruct (e0 =? _)%nat; auto|]; split; [intro r0; cbn; unfold upd; try destruct (r0 =? _)%nat; auto|];
      intro j; cbn; unfold upd; destruct (Nat.eqb_spec j i) as [->|?]; [|apply W]; repeat split; try discriminate; destruct Wi as (? & ? & ?); congruence.
Qed.
Theorem nothing_returned tr s : run s_init tr s -> nothing_read tr -> Forall quiet_label (labels tr).
Proof.
  intros R Q. assert (G : quiet_state s /\ Forall quiet_label (labels tr)); [|apply G]. remember s_init as z eqn:Z. induction R as [s|s tr s' a l s'' R IH E].
  - subst. split; [|constructor]. repeat split; try discriminate.
  - apply Forall_app in Q. destruct Q as [Q1 Q2]. inversion Q2 as [|? ? Q3 _]; subst. destruct (IH eq_refl Q1) as [G1 G2]. destruct (quiet_act _ _ _ _ G1 Q3 E) as [G3 G4].
    split; [exact G3|]. unfold labels in *. rewrite map_app. apply Forall_app. split; [exact G2|]. constructor; [exact G4|constructor].
Qed.
Theorem silent_connect pin m sc : exists w, connect pin (start m (NoReply [] :: sc)) = Done (Err (TimeoutException None)) w /\ trace w = [EWrite (lit "ATZ" ++ [13]) (Some (NoReply []))].
Proof. eexists. split; [reflexivity|reflexivity]. Qed.
