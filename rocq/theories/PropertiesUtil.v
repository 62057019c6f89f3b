(** Properties C28-C29: util.py. *)
From Verif Require Import Base DateModel PduSpec UtilModel UtilSpec UtilProofs TimeExact.

(** C28: text-mode time stamps. *)
Theorem C28_time : forall y mo d h mi s neg n,
  1969 <= y <= 2068 -> real_date y mo d -> real_time h mi s -> 0 <= n <= 99 ->
  parseTextModeTimeStr (date_text y mo d h mi s ++ zone_text neg n) =
  Ok (mk_datetime y mo d h mi s 0 (Some (td_of_hours (Z.quot (if neg then - n else n) 4)))).
Proof. exact text_time_ok. Qed.
Print Assumptions C28_time.
(** the offset is right exactly for whole hours; otherwise it is up to 45 minutes
    too close to zero *)
Theorem C28_offset : forall (neg : bool) n, 0 <= n <= 99 -> let q := if neg then - n else n in
  (td_of_hours (Z.quot q 4) = td_of_minutes (15 * q) <-> n mod 4 = 0) /\
  0 <= Z.abs (td_of_minutes (15 * q)) - Z.abs (td_of_hours (Z.quot q 4)) <= td_of_minutes 45.
Proof. exact text_offset_right. Qed.
Print Assumptions C28_offset.
Theorem C28_no_such_date : forall y mo d h mi s neg n,
  1969 <= y <= 2068 -> 1 <= mo <= 12 -> 1 <= d <= 31 -> ~ real_date y mo d -> real_time h mi s -> 0 <= n <= 99 ->
  parseTextModeTimeStr (date_text y mo d h mi s ++ zone_text neg n) = Err ValueError.
Proof. exact text_time_bad_date. Qed.
Print Assumptions C28_no_such_date.
(** any string at all *)
Theorem C28_total : forall s, match parseTextModeTimeStr s with
  | Ok t => exists y, dt_year t = y /\ 1969 <= y <= 2068 /\ real_date y (dt_month t) (dt_day t) /\
            real_time (dt_hour t) (dt_minute t) (dt_second t) /\ exists hours, dt_utcoff t = Some (td_of_hours hours)
  | Err e => e = ValueError
  end.
Proof. exact text_time_total. Qed.
Print Assumptions C28_total.
(** exactly the accepted strings: a date whose numbers below ten may have one digit, and
    three characters that int() takes *)
Theorem C28_exact : forall s t, parseTextModeTimeStr s = Ok t <->
  exists date zone q y mo d h mi se, s = date ++ zone /\ length zone = 3%nat /\ py_int 10 zone = Ok q /\ read_as date y mo d h mi se /\
    1969 <= y <= 2068 /\ real_date y mo d /\ real_time h mi se /\ t = mk_datetime y mo d h mi se 0 (Some (td_of_hours (Z.quot q 4))).
Proof. exact text_time_exact. Qed.
Print Assumptions C28_exact.
Example C28_example_short : parseTextModeTimeStr (lit "13/7/ 7,1:5:0 +4") = Ok (mk_datetime 2013 7 7 1 5 0 0 (Some (td_of_hours 1))).
Proof. vm_compute. reflexivity. Qed.
Example C28_example :
  date_text 2013 7 27 18 5 9 ++ zone_text false 22 = lit "13/07/27,18:05:09+22" /\ real_date 2013 7 27 /\ real_time 18 5 9 /\
  parseTextModeTimeStr (lit "13/07/27,18:05:09+22") = Ok (mk_datetime 2013 7 27 18 5 9 0 (Some (td_of_hours 5))) /\
  ~ real_date 2013 2 30 /\ parseTextModeTimeStr (lit "hello") = Err ValueError.
Proof.
  split; [vm_compute; reflexivity|]. split; [|split; [|split; [|split]]].
  - unfold real_date. change (nth (Z.to_nat (7 - 1)) month_lengths 0) with 31. lia.
  - unfold real_time. lia.
  - vm_compute. reflexivity.
  - unfold real_date. change (nth (Z.to_nat (2 - 1)) month_lengths 0) with 28. lia.
  - vm_compute. reflexivity.
Qed.

(** C29: line searches. *)
Theorem C29_starting_with : forall p lines, match lineStartingWith p lines with
  | Some l => first_such (fun l => exists r, l = p ++ r) lines l
  | None => forall l, In l lines -> ~ exists r, l = p ++ r
  end.
Proof. exact starting_with_spec. Qed.
Print Assumptions C29_starting_with.
Theorem C29_matching : forall M (p : pattern M) lines, match lineMatchingPattern p lines with
  | Some m => exists l, p l = Some m /\ first_such (fun l => p l <> None) lines l
  | None => forall l, In l lines -> p l = None
  end.
Proof. exact matching_spec. Qed.
Print Assumptions C29_matching.
Theorem C29_all_matching : forall M (p : pattern M) lines,
  map Some (allLinesMatchingPattern p lines) = map p (filter (fun l => if p l then true else false) lines).
Proof. exact all_matching_spec. Qed.
Print Assumptions C29_all_matching.
Example C29_example :
  lineStartingWith (lit "+CMGS:") [lit "x"; lit "+CMGS: 4"; lit "+CMGS: 5"; lit "OK"] = Some (lit "+CMGS: 4") /\
  let p l := if startswith l (lit "+C") then Some (Z.of_nat (length l)) else None in
  lineMatchingPattern p [lit "OK"; lit "+C1"; lit "+CX2"] = Some 3 /\
  allLinesMatchingPattern p [lit "OK"; lit "+C1"; lit "-"; lit "+CX2"] = [3; 4].
Proof. vm_compute. repeat split; reflexivity. Qed.
