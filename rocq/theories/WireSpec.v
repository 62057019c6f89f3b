(** Specification vocabulary: the serial port with a modem at its other end. *)
From Verif Require Import Base SerialModel SerialSpec.

(** What a modem puts on the wire: lines, blank lines, and the prompt for a text. *)
Definition prompt : str := lit "> ".
Inductive seg := Line (l : str) | Blank | Prompt.
Definition encode (x : seg) : str := match x with Line l => l ++ crlf | Blank => crlf | Prompt => prompt end.
Definition text (x : seg) : list str := match x with Line l => [l] | Blank => [] | Prompt => [prompt] end.
Definition texts (xs : list seg) : list str := flat_map text xs.

Definition proper_line (l : str) : Prop := l <> [] /\ ~ occurs crlf l /\ ~ occurs prompt l.
(** what can come unasked, and within an answer before its end *)
Definition inner (x : seg) : Prop :=
  match x with Line l => proper_line l /\ ~ final_line l | Blank => True | Prompt => False end.
(** the end of an answer: a final result line, or the prompt if the command is one that
    asks for a text *)
Definition ending (expected : option str) (x : seg) : Prop :=
  match x with Line l => proper_line l /\ final_line l | Blank => False | Prompt => expected = Some prompt end.
Definition answers (expected : option str) (xs : list seg) : Prop :=
  exists body fin, xs = body ++ [fin] /\ Forall inner body /\ ending expected fin.

(** [c] consists of the elements of [a] and of [b], each in its order. *)
Inductive merged {A} : list A -> list A -> list A -> Prop :=
| mg_nil : merged [] [] []
| mg_left x a b c : merged a b c -> merged (x :: a) b (x :: c)
| mg_right x a b c : merged a b c -> merged a (x :: b) (x :: c).

(** The modem and the port: characters on their way, what the modem still has to send
    of its answer; and what has happened: commands that wait, with the modem's answers,
    responses returned, what was sent unasked, lines passed to the notification buffer. *)
Record wired := mk_wired {
  port : sstate;
  queue : str;
  owed : list seg;
  commands : list (nat * str * list seg);
  responses : list (nat * list str);
  announced : list seg;
  notified : list str }.
Definition wired_init : wired := mk_wired s_init [] [] [] [] [] [].

Definition note (w : wired) (s : sstate) (q : str) (l : label) : wired :=
  mk_wired s q (owed w) (commands w)
    (match l with LReturn i ls => responses w ++ [(i, ls)] | _ => responses w end) (announced w)
    (match l with LNotify x => notified w ++ [x] | _ => notified w end).

(** Any number of threads write, none times out, and the prompt waited for is "> " if
    any.  The modem sends a line unasked at any moment between two lines, and answers a
    command that waits with any answer, after it was sent. *)
Inductive wstep : wired -> wired -> Prop :=
| ws_announce w x : inner x ->
    wstep w (mk_wired (port w) (queue w ++ encode x) (owed w) (commands w) (responses w) (announced w ++ [x]) (notified w))
| ws_answer w x rest : owed w = x :: rest ->
    wstep w (mk_wired (port w) (queue w ++ encode x) rest (commands w) (responses w) (announced w) (notified w))
| ws_char w buf c q e s l : reader (port w) = RIdle buf -> queue w = c :: q ->
    read_step (port w) (mk_rin (Some c) e) = Some (s, l) -> wstep w (note w s q l)
| ws_handle w e s l : (forall buf, reader (port w) <> RIdle buf) ->
    read_step (port w) (mk_rin None e) = Some (s, l) -> wstep w (note w s (queue w) l)
| ws_write w i op s l : w_expected op = None \/ w_expected op = Some prompt ->
    (forall j d, l <> LSend j d true) -> write_step (port w) i (mk_win op false) = Some (s, l) -> wstep w (note w s (queue w) l)
| ws_send w i op x s d a : writer (port w) i = WSend op -> answers (w_expected op) a ->
    write_step (port w) i x = Some (s, LSend i d true) ->
    wstep w (mk_wired s (queue w) a (commands w ++ [(i, d, a)]) (responses w) (announced w) (notified w)).
Inductive reached : wired -> Prop :=
| rc_init : reached wired_init
| rc_step w w' : reached w -> wstep w w' -> reached w'.

(** Every response returned consists of the modem's answer to the command and of lines
    that came unasked ([unasked]: all of these, in order). *)
Inductive served : list (nat * str * list seg) -> list (nat * list str) -> list str -> Prop :=
| sv_nil : served [] [] []
| sv_snoc cs rs unasked i d a ls notes : served cs rs unasked -> merged (texts a) notes ls ->
    served (cs ++ [(i, d, a)]) (rs ++ [(i, ls)]) (unasked ++ notes).

(** steps of the read thread *)
Definition read_thread (w w' : wired) : Prop :=
  exists i s l q, read_step (port w) i = Some (s, l) /\ w' = note w s q l /\
    match in_char i with Some c => queue w = c :: q /\ exists buf, reader (port w) = RIdle buf
                       | None => q = queue w /\ forall buf, reader (port w) <> RIdle buf end.
