(** Python 3: a port that delivers bytes. *)
From Verif Require Import Base SerialModel SerialSpec ResponseProofs DeathProofs SerialFinal BytesModel BytesSpec BytesProofs ModemCore ConnectModel TrackSpec.

(** C99: bytes objects are never recognised as the end of a line or as a prompt: whatever
    the modem sends, nothing is handed over, and rxBuffer grows with every read, also with
    those that time out *)
Theorem C99_bytes : forall input, (forall x, In x input -> fst x <> Some []) ->
  read_data [] (map (fun x => (fst x, as_bytes (snd x))) input) = ([], Ok (map (fun x => as_bytes (snd x)) input)).
Proof. exact (fun input => bytes_kept [] input (Forall_nil _)). Qed.
Print Assumptions C99_bytes.
(** with strings it is the read loop that the other properties are about *)
Theorem C99_strings : forall expect input, read_data [] (map (fun d => (expect, as_str d)) input) =
  let '(calls, rest) := rx_run expect [] input in (calls, Ok (chars rest)).
Proof. exact (fun expect input => strings_read expect [] input). Qed.
Print Assumptions C99_strings.
(** a bytes object among strings ends the read thread with a TypeError at the end of its
    line *)
Theorem C99_mixed : forall before b after rest, ~ occurs crlf before -> ~ occurs crlf after ->
  read_data [] (as_strings before ++ (None, DBytes b) :: as_strings (after ++ crlf) ++ rest) = ([], Err TypeError).
Proof. exact mixed_dies. Qed.
Print Assumptions C99_mixed.
Example C99_example_mixed : read_data [] (as_strings (lit "RI") ++ (None, DBytes [78]) :: as_strings (lit "G" ++ crlf) ++ as_strings (lit "OK" ++ crlf)) = ([], Err TypeError).
Proof. reflexivity. Qed.
Definition hello : list (option Z) := map Some ([13; 10] ++ lit "RING" ++ [13; 10]) ++ [None].
Example C99_example :
  read_data [] (map (fun d => (None, as_str d)) hello) = ([(lit "RING", true)], Ok []) /\
  fst (read_data [] (map (fun d => (None, as_bytes d)) hello)) = [] /\
  match snd (read_data [] (map (fun d => (None, as_bytes d)) hello)) with Ok buf => length buf = 9%nat | Err _ => False end.
Proof. vm_compute. auto. Qed.
(** so no call of write() that waits for an answer returns one: in every schedule it ends
    with a TimeoutException without data *)
Theorem C99_silent : forall tr s, run s_init tr s -> nothing_read tr ->
  Forall (fun l => match l with LReturn _ _ | LChar _ | LLine _ _ | LAppend _ _ | LNotify _ | LCallback _ | LDied _ => False | LTimeout _ ls => ls = [] | _ => True end) (labels tr).
Proof. exact nothing_returned. Qed.
Print Assumptions C99_silent.
Definition patience (i : nat) : list action := repeat (AWrite i (mk_win (mk_wop (lit "ATZ") true None) true)) 11.
Example C99_silent_example : exists tr s, run s_init tr s /\ nothing_read tr /\ In (LTimeout 0 []) (labels tr) /\ In (LTimeout 1 []) (labels tr).
Proof.
  destruct (exec s_init (patience 0 ++ [ARead (mk_rin None true)] ++ patience 1)) as [[tr s]|] eqn:X; [|vm_compute in X; discriminate].
  exists tr, s. split; [eapply exec_run; eauto|]. vm_compute in X. injection X as <- <-. split; [repeat constructor|]. split; cbn; tauto.
Qed.
(** and connect() fails at its first command *)
Theorem C99_connect : forall pin m sc, exists w, connect pin (start m (NoReply [] :: sc)) = Done (Err (TimeoutException None)) w /\
  trace w = [EWrite (lit "ATZ" ++ [13]) (Some (NoReply []))].
Proof. exact silent_connect. Qed.
Print Assumptions C99_connect.
