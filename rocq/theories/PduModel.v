(** Model of gsmmodem/pdu.py (Python 3 semantics), function by function. *)
From Verif Require Export Base DateModel.

(** ** Tables *)

(** pdu.py:28 GSM7_BASIC: code points of the 128 characters, in order. *)
Definition GSM7_BASIC : str :=
  [64; 163; 36; 165; 232; 233; 249; 236; 242; 199; 10; 216; 248; 13; 197; 229;
   916; 95; 934; 915; 923; 937; 928; 936; 931; 920; 926; 27; 198; 230; 223; 201;
   32; 33; 34; 35; 164; 37; 38; 39; 40; 41; 42; 43; 44; 45; 46; 47;
   48; 49; 50; 51; 52; 53; 54; 55; 56; 57; 58; 59; 60; 61; 62; 63;
   161; 65; 66; 67; 68; 69; 70; 71; 72; 73; 74; 75; 76; 77; 78; 79;
   80; 81; 82; 83; 84; 85; 86; 87; 88; 89; 90; 196; 214; 209; 220; 96;
   191; 97; 98; 99; 100; 101; 102; 103; 104; 105; 106; 107; 108; 109; 110; 111;
   112; 113; 114; 115; 116; 117; 118; 119; 120; 121; 122; 228; 246; 241; 252; 224].

(** The values of the GSM7_EXTENDED dict: 1-character strings, except for the
    first entry whose value is the integer 0x0A (not chr(0x0A)). *)
Inductive ext_value := VChr (c : Z) | VInt (n : Z).

(** pdu.py:29-40 GSM7_EXTENDED *)
Definition GSM7_EXTENDED : list (Z * ext_value) :=
  [(255, VInt 10); (94, VChr 20); (123, VChr 40); (125, VChr 41); (92, VChr 47);
   (91, VChr 60); (126, VChr 61); (93, VChr 62); (124, VChr 64); (8364, VChr 101)].

(** pdu.py:42-44 MAX_MESSAGE_LENGTH[alphabet] (only the keys 0x00 and 0x08 are
    ever looked up; 0x04 is in the dict but unused). *)
Definition MAX_MESSAGE_LENGTH (alphabet : Z) : Z :=
  if alphabet =? 0 then 160 else if alphabet =? 4 then 140 else 70.

(** ** Semi-octets *)

(** pdu.py:629: [int(number[i+1] + number[i], 16) for i in range(0, len, 2)],
    for a list of even length. *)
Fixpoint semi_pairs (number : str) : res (list Z) :=
  match number with
  | a :: b :: rest =>
      let* v := py_int 16 [b; a] in
      let* vs := semi_pairs rest in
      Ok (v :: vs)
  | [_] => Err IndexError
  | [] => Ok []
  end.

(** pdu.py:621-630 *)
Definition encodeSemiOctets (number : str) : res bytes :=
  let number := if Nat.odd (length number) then number ++ [70] else number in
  let* octets := semi_pairs number in
  mk_bytes octets.

(** pdu.py:632-658, for an iterator argument: the decoded string and what is
    left of the iterator.  [i] is the loop counter, [numberOfOctets] the limit.
    hexVal = hex(octet)[2:].zfill(2). *)
Fixpoint decodeSemiOctets_loop (it : list Z) (numberOfOctets : option Z) (i : Z) : str * list Z :=
  match it with
  | [] => ([], [])
  | octet :: it' =>
      let hi := octet / 16 in
      let lo := octet mod 16 in
      if hi =? 15 then ([hexdigit_lower lo], it')
      else
        let two := [hexdigit_lower lo; hexdigit_lower hi] in
        match numberOfOctets with
        | None => let (s, r) := decodeSemiOctets_loop it' numberOfOctets i in (two ++ s, r)
        | Some n =>
            let i := i + 1 in
            if i =? n then (two, it')
            else let (s, r) := decodeSemiOctets_loop it' numberOfOctets i in (two ++ s, r)
        end
  end.
Definition decodeSemiOctets (it : list Z) (numberOfOctets : option Z) : str * list Z :=
  decodeSemiOctets_loop it numberOfOctets 0.

(** ** GSM-7 *)

(** str.find of a single character *)
Fixpoint find_char (c : Z) (s : str) (i : Z) : Z :=
  match s with
  | [] => -1
  | d :: s' => if c =? d then i else find_char c s' (i + 1)
  end.

Fixpoint assoc {B} (k : Z) (l : list (Z * B)) : option B :=
  match l with
  | [] => None
  | (k', v) :: l' => if k =? k' then Some v else assoc k l'
  end.

(** pdu.py:660-686 *)
Fixpoint encodeGsm7 (plaintext : str) (discardInvalid : bool) : res bytes :=
  match plaintext with
  | [] => Ok []
  | c :: rest =>
      let idx := find_char c GSM7_BASIC 0 in
      if negb (idx =? -1) then
        let* r := encodeGsm7 rest discardInvalid in Ok (idx :: r)
      else
        match assoc c GSM7_EXTENDED with
        | Some (VChr v) => let* r := encodeGsm7 rest discardInvalid in Ok (27 :: v :: r)
        | Some (VInt _) => Err TypeError          (* ord() of an int *)
        | None => if negb discardInvalid then Err ValueError
                  else encodeGsm7 rest discardInvalid
        end
  end.

(** pdu.py:706-709: the dict scan; only string values can equal [c] *)
Fixpoint ext_lookup (c : Z) (l : list (Z * ext_value)) : str :=
  match l with
  | [] => []
  | (ch, VChr v) :: l' => if c =? v then [ch] else ext_lookup c l'
  | (_, VInt _) :: l' => ext_lookup c l'
  end.

(** pdu.py:688-712.  [GSM7_BASIC[b]] raises IndexError for b >= 128. *)
Fixpoint decodeGsm7 (encoded : bytes) : res str :=
  match encoded with
  | [] => Ok []
  | b :: rest =>
      if b =? 27 then
        match rest with
        | [] => Err StopIteration
        | c :: rest' => let* r := decodeGsm7 rest' in Ok (ext_lookup c GSM7_EXTENDED ++ r)
        end
      else
        match nth_error GSM7_BASIC (Z.to_nat b) with
        | Some ch => let* r := decodeGsm7 rest in Ok (ch :: r)
        | None => Err IndexError
        end
  end.

(** ** Septet packing *)

(** pdu.py:732-746, the loop and the final step.  A shift outside 0..7 makes one
    of the shift counts negative (ValueError). *)
Fixpoint packSeptets_loop (octets : bytes) (shift prevSeptet : Z) : res bytes :=
  match octets with
  | [] => if shift <? 0 then Err ValueError
          else if negb (shift =? 7) then Ok [Z.shiftr prevSeptet shift] else Ok []
  | octet :: rest =>
      let septet := Z.land octet 127 in
      if shift =? 7 then packSeptets_loop rest 0 septet
      else if (shift <? 0) || (7 <? shift) then Err ValueError
      else
        let b := Z.lor (Z.land (Z.shiftl septet (7 - shift)) 255) (Z.shiftr prevSeptet shift) in
        let* r := packSeptets_loop rest (shift + 1) septet in
        Ok (b :: r)
  end.

(** pdu.py:714-746 (bytearray argument) *)
Definition packSeptets (octets : bytes) (padBits : Z) : res bytes :=
  if padBits =? 0 then
    let* (prev, rest) := next octets in packSeptets_loop rest padBits prev
  else packSeptets_loop octets padBits 0.

(** pdu.py:788-793, after the loop.  [prevOctet >> (8 - shift)] with
    prevOctet = None raises TypeError. *)
Definition unpackSeptets_end (shift : Z) (prevOctet : option Z) : res bytes :=
  if shift =? 7 then
    match prevOctet with
    | None => Err TypeError
    | Some p => let b := Z.shiftr p (8 - shift) in if negb (b =? 0) then Ok [b] else Ok []
    end
  else Ok [].

(** pdu.py:766-787.  [n] is numberOfSeptets ([None] stands for MAX_INT, which no
    iterator reaches); [i] the loop counter.  Result: septets appended from here
    on, and the rest of the iterator.  Simplification: shift is between 1 and 7
    in every call the code makes; larger shifts are not modelled. *)
Fixpoint unpackSeptets_loop (septets : list Z) (n : option Z) (i : Z) (prevOctet : option Z) (shift : Z)
  : res (bytes * list Z) :=
  match septets with
  | [] => let* e := unpackSeptets_end shift prevOctet in Ok (e, [])
  | octet :: rest =>
      let i := i + 1 in
      let last := match n with Some m => i =? m | None => false end in
      if shift =? 7 then
        let shift := 1 in
        let out1 := match prevOctet with Some p => [Z.shiftr p 1] | None => [] end in
        let fits := match n with Some m => i <=? m | None => true end in
        let out2 := if fits then [Z.land octet 127] else [] in
        let prevOctet := if fits then Some octet else prevOctet in
        if last then
          let* e := unpackSeptets_end shift prevOctet in Ok (out1 ++ out2 ++ e, rest)
        else
          let* (r, rest') := unpackSeptets_loop rest n i prevOctet shift in
          Ok (out1 ++ out2 ++ r, rest')
      else
        match prevOctet with
        | None => Err TypeError                    (* None >> (8 - shift) *)
        | Some p =>
            let b := Z.lor (Z.land (Z.shiftl octet shift) 127) (Z.shiftr p (8 - shift)) in
            let prevOctet := Some octet in
            let shift := shift + 1 in
            if last then
              let* e := unpackSeptets_end shift prevOctet in Ok (b :: e, rest)
            else
              let* (r, rest') := unpackSeptets_loop rest n i prevOctet shift in
              Ok (b :: r, rest')
        end
  end.

(** pdu.py:748-793 *)
Definition unpackSeptets (septets : list Z) (numberOfSeptets : option Z) (prevOctet : option Z) (shift : Z)
  : res (bytes * list Z) :=
  unpackSeptets_loop septets numberOfSeptets 0 prevOctet shift.

(** ** UCS-2 *)

(** pdu.py:808-822 *)
Fixpoint encodeUcs2 (text : str) : res bytes :=
  match text with
  | [] => Ok []
  | b :: rest =>
      let* hi := byte (Z.shiftr b 8) in
      let* lo := byte (Z.land b 255) in
      let* r := encodeUcs2 rest in
      Ok (hi :: lo :: r)
  end.

(** pdu.py:795-806.  When the iterator runs out (also in the middle of a
    character) what was decoded so far is returned. *)
Fixpoint decodeUcs2_loop (it : list Z) (i numBytes : Z) : str * list Z :=
  if i <? numBytes then
    match it with
    | a :: b :: it' =>
        let (s, r) := decodeUcs2_loop it' (i + 2) numBytes in
        (Z.lor (Z.shiftl a 8) b :: s, r)
    | _ => ([], [])
    end
  else ([], it).
Definition decodeUcs2 (it : list Z) (numBytes : Z) : str * list Z := decodeUcs2_loop it 0 numBytes.

(** ** Validity period *)

(** pdu.py:456-469 *)
Definition decodeRelativeValidityPeriod (tpVp : Z) : res timedelta :=
  if tpVp <=? 143 then Ok (td_of_minutes ((tpVp + 1) * 5))
  else if (144 <=? tpVp) && (tpVp <=? 167) then Ok (td_of_hours 12 + td_of_minutes ((tpVp - 143) * 30))
  else if (168 <=? tpVp) && (tpVp <=? 196) then Ok ((tpVp - 166) * us_per_day)
  else if (197 <=? tpVp) && (tpVp <=? 255) then Ok ((tpVp - 192) * (7 * us_per_day))
  else Err ValueError.

(** pdu.py:471-492.  [int(x / y)] truncates toward zero ([Z.quot]); the float
    quotients involved are far from the precision limit. *)
Definition encodeRelativeValidityPeriod (v : timedelta) : res Z :=
  let seconds := td_seconds v + td_days v * 24 * 3600 in
  if seconds <=? 43200 then Ok (Z.quot seconds 300 - 1)
  else if seconds <=? 86400 then Ok (Z.quot (seconds - 43200) 1800 + 143)
  else if td_days v <=? 30 then Ok (td_days v + 166)
  else if td_days v <=? 441 then Ok (Z.quot (td_days v) 7 + 192)
  else Err ValueError.

(** ** Timestamps *)

(** pdu.py:62-68 SmsPduTzInfo._setPduOffsetStr: the offset.
    '{0:0>2X}'.format(x) for x < 256 is two upper-case hex digits. *)
Definition pduOffset (s : str) : res timedelta :=
  let* tzHexVal := py_int 16 s in
  if Z.land tzHexVal 128 =? 0 then
    let* q := py_int 10 s in Ok (td_of_minutes (q * 15))
  else
    let v := Z.land tzHexVal 127 in
    let* q := py_int 10 [hexdigit_upper (v / 16); hexdigit_upper (v mod 16)] in
    Ok (td_of_minutes (q * -15)).

(** s[:-2] and s[-2:] *)
Definition drop_last2 (s : str) : str := firstn (length s - 2) s.
Definition last2 (s : str) : str := skipn (length s - 2) s.

(** pdu.py:494-498 *)
Definition decodeTimestamp (it : list Z) : res (datetime * list Z) :=
  let (dateStr, rest) := decodeSemiOctets it (Some 7) in
  let timeZoneStr := last2 dateStr in
  let* d := strptime_ymdHMS (drop_last2 dateStr) None in
  let* off := pduOffset timeZoneStr in
  Ok (mk_datetime (dt_year d) (dt_month d) (dt_day d) (dt_hour d) (dt_minute d) (dt_second d) (dt_us d) (Some off), rest).

(** pdu.py:500-526.  utcoffset() is strictly between -24h and 24h for any
    datetime, so the quarter-hour counts below are at most 95 and
    '{0:0>2}'.format gives two digits. *)
Definition encodeTimestamp (timestamp : datetime) : res bytes :=
  match dt_utcoff timestamp with
  | None => Err ValueError
  | Some tzDelta =>
      let* tzValStr :=
        if 0 <=? td_days tzDelta then
          Ok (two_digits (td_seconds tzDelta / 60 / 15))
        else
          let tzVal := (td_days tzDelta * -3600 * 24 - td_seconds tzDelta) / 60 / 15 in
          let* v := py_int 16 (two_digits tzVal) in
          let tzVal := Z.lor v 128 in
          Ok [hexdigit_upper (tzVal / 16); hexdigit_upper (tzVal mod 16)] in
      encodeSemiOctets (strftime_ymdHMS timestamp ++ tzValStr)
  end.

(** pdu.py:528-534 *)
Definition decodeDataCoding (octet : Z) : Z :=
  if Z.land octet 192 =? 0 then Z.shiftr (Z.land octet 12) 2 else 0.

(** ** Addresses *)

(** pdu.py:536-571: (address value or None, octets read), rest of the iterator *)
Definition decodeAddressField (it : list Z) (smscField : bool) : res ((option str * Z) * list Z) :=
  let* (addressLen, it) := next it in
  if 0 <? addressLen then
    let* (toa, it) := next it in
    let ton := Z.land toa 112 in
    if ton =? 80 then
      let addressLen := (addressLen + 1) / 2 in
      let* (septets, it) := unpackSeptets it (Some addressLen) None 7 in
      let* addressValue := decodeGsm7 septets in
      Ok ((Some addressValue, addressLen + 2), it)
    else
      let '((addressValue, it), addressLen) :=
        if smscField then (decodeSemiOctets it (Some (addressLen - 1)), addressLen)
        else
          let addressLen := if addressLen mod 2 =? 0 then addressLen / 2 else addressLen / 2 + 1 in
          (decodeSemiOctets it (Some addressLen), addressLen + 1) in
      let addressValue := if ton =? 16 then 43 :: addressValue else addressValue in
      Ok ((Some addressValue, addressLen + 1), it)
  else Ok ((None, 1), it).

(** str.isdigit (ASCII, see Base) *)
Definition isdigit (s : str) : bool :=
  match s with [] => false | _ => forallb is_digit s end.

(** pdu.py:573-619.  The isalnum() test only separates the two ways of reaching
    the alphanumeric case and is therefore folded into the isdigit() tests: a
    string of digits is alphanumeric, and a non-alphanumeric string is never all
    digits.  address[0] of an empty address raises IndexError. *)
Definition encodeAddressField (address : str) (smscField : bool) : res bytes :=
  let toa0 := Z.lor (Z.lor 128 0) 1 in
  let alphaToa := Z.land (Z.lor toa0 80) 254 in
  let* (toa, alphaNumeric, address) :=
    if isdigit address then Ok (Z.lor toa0 32, false, address)
    else
      match address with
      | [] => Err IndexError
      | c :: tl => if (c =? 43) && isdigit tl then Ok (Z.lor toa0 16, false, tl)
                   else Ok (alphaToa, true, address)
      end in
  let* (addressValue, addressLen) :=
    if (alphaNumeric : bool) then
      let* septets := encodeGsm7 address false in
      let* v := packSeptets septets 0 in
      Ok (v, Z.of_nat (length v) * 2)
    else
      let* v := encodeSemiOctets address in
      Ok (v, if smscField then Z.of_nat (length v) + 1 else Z.of_nat (length address)) in
  let* l := byte addressLen in
  Ok (l :: toa :: addressValue).

(** ** Information elements *)

(** InformationElement and its subclasses Concatenation and PortAddress
    (pdu.py:78-206): the common attributes and, for a subclass, its fields. *)
Inductive ie_fields :=
| IEPlain
| IEConcat (reference parts number : Z)
| IEPort (destination source : Z).
Record ie := mk_ie { ie_id : Z; ie_dataLength : Z; ie_data : list Z; ie_special : ie_fields }.

(** pdu.py:91-106,156-164,189-196 and IEI_CLASS_MAP 210-214: the object that
    InformationElement(iei, ieLen, ieData) creates. *)
Definition mk_InformationElement (iei ieLen : Z) (ieData : list Z) : res ie :=
  let mk sp := Ok (mk_ie iei ieLen ieData sp) in
  if iei =? 0 then
    match ieData with
    | [r; p; n] => mk (IEConcat r p n)
    | _ => Err ValueError                         (* tuple unpacking *)
    end
  else if iei =? 8 then
    match ieData with
    | a :: b :: p :: n :: _ => mk (IEConcat (Z.lor (Z.shiftl a 8) b) p n)
    | _ => Err IndexError
    end
  else if iei =? 4 then
    match ieData with
    | [d; s] => mk (IEPort d s)
    | _ => Err ValueError
    end
  else if iei =? 5 then
    match ieData with
    | a :: b :: c :: d :: _ => mk (IEPort (Z.lor (Z.shiftl a 8) b) (Z.lor (Z.shiftl c 8) d))
    | _ => Err IndexError
    end
  else mk IEPlain.

(** pdu.py:119-120: read [k] items *)
Fixpoint read_n (k : nat) (it : list Z) : res (list Z * list Z) :=
  match k with
  | O => Ok ([], it)
  | S k' =>
      let* (x, it) := next it in
      let* (xs, it) := read_n k' it in
      Ok (x :: xs, it)
  end.

(** pdu.py:108-121 InformationElement.decode *)
Definition ie_decode (it : list Z) : res (ie * list Z) :=
  let* (iei, it) := next it in
  let* (ieLen, it) := next it in
  let* (ieData, it) := read_n (Z.to_nat ieLen) it in
  let* e := mk_InformationElement iei ieLen ieData in
  Ok (e, it).

(** pdu.py:123-129 InformationElement.encode *)
Definition ie_encode_raw (id dataLength : Z) (data : list Z) : res bytes :=
  mk_bytes (id :: dataLength :: data).

(** pdu.py:166-174 Concatenation.encode *)
Definition concat_encode (reference parts number : Z) : res bytes :=
  if 255 <? reference then
    ie_encode_raw 8 4 [Z.shiftr reference 8; Z.land reference 255; parts; number]
  else ie_encode_raw 0 3 [reference; parts; number].

(** pdu.py:198-206 PortAddress.encode *)
Definition port_encode (destination source : Z) : res bytes :=
  if (255 <? destination) || (255 <? source) then
    ie_encode_raw 5 4 [Z.shiftr destination 8; Z.land destination 255; Z.shiftr source 8; Z.land source 255]
  else ie_encode_raw 4 2 [destination; source].

(** encode() dispatched on the object's class *)
Definition ie_encode (e : ie) : res bytes :=
  match ie_special e with
  | IEPlain => ie_encode_raw (ie_id e) (ie_dataLength e) (ie_data e)
  | IEConcat r p n => concat_encode r p n
  | IEPort d s => port_encode d s
  end.

(** pdu.py:131-133 __len__ *)
Definition ie_len (e : ie) : Z := ie_dataLength e + 2.

(** ** Encoding an SMS-SUBMIT *)

(** The [validity] argument: None, a timedelta, a datetime, or anything else. *)
Inductive validity := VNone | VRelative (t : timedelta) | VAbsolute (t : datetime) | VOther.

(** class Pdu, pdu.py:217-228 *)
Record pdu := mk_pdu { pdu_data : bytes; pdu_tpduLength : Z }.

(** pdu.py:258-271: first-octet bits and validity-period octets (None when the
    field is absent).  The octets of a relative period are checked when they are
    added to the bytearray (line 329). *)
Definition submit_validity (v : validity) : res (Z * option (list Z)) :=
  match v with
  | VNone => Ok (0, None)
  | VRelative t => let* o := encodeRelativeValidityPeriod t in Ok (16, Some [o])
  | VAbsolute t => let* o := encodeTimestamp t in Ok (24, Some o)
  | VOther => Err TypeError
  end.

(** pdu.py:278-284: the alphabet *)
Definition submit_alphabet (text : str) : res Z :=
  match encodeGsm7 text false with
  | Ok _ => Ok 0
  | Err ValueError => Ok 8
  | Err e => Err e
  end.

(** text[i*k:(i+1)*k] *)
Definition slice (text : str) (i k : nat) : str := firstn k (skipn (i * k) text).

(** pdu.py:301-354: the PDU of part [i] (0-based).  [concat] is the number of
    parts when the text is concatenated. *)
Definition submit_part (number text : str) (reference : Z) (smsc : option str)
    (firstOctet alphabet : Z) (validityPeriod : option (list Z)) (sendFlash : bool)
    (concat : option Z) (i : nat) : res pdu :=
  let* smscPart :=
    match smsc with
    | Some (c :: s) => encodeAddressField (c :: s) true
    | _ => Ok [0]
    end in
  let* (udh, pduText) :=
    match concat with
    | Some parts =>
        let t := if alphabet =? 0 then slice text i 153 else slice text i 67 in
        let* h := concat_encode reference parts (Z.of_nat i + 1) in
        Ok (h, t)
    | None => Ok ([], text)
    end in
  let udhLen := Z.of_nat (length udh) in
  let* ref := byte reference in
  let* addr := encodeAddressField number false in
  let dcs := if negb sendFlash then alphabet else if alphabet =? 0 then 16 else 24 in
  let* vp := match validityPeriod with Some o => mk_bytes o | None => Ok [] end in
  let* (userData, userDataLength) :=
    if alphabet =? 0 then
      let* encodedText := encodeGsm7 pduText false in
      let userDataLength := Z.of_nat (length encodedText) in
      if 0 <? udhLen then
        let shift := ((udhLen + 1) * 8) mod 7 in
        let* userData := packSeptets encodedText shift in
        Ok (userData, if 0 <? shift then userDataLength + 1 else userDataLength)
      else
        let* userData := packSeptets encodedText 0 in
        Ok (userData, userDataLength)
    else
      let* userData := encodeUcs2 pduText in
      Ok (userData, Z.of_nat (length userData)) in
  let* tail :=
    if 0 <? udhLen then
      let* udl := byte (userDataLength + (udhLen + 1)) in
      let* ul := byte udhLen in
      Ok (udl :: ul :: udh ++ userData)
    else
      let* udl := byte userDataLength in
      Ok (udl :: userData) in
  let data := smscPart ++ [firstOctet; ref] ++ addr ++ [0; dcs] ++ vp ++ tail in
  Ok (mk_pdu data (Z.of_nat (length data) - 1)).

(** the loop over the parts *)
Fixpoint map_res {A B} (f : A -> res B) (l : list A) : res (list B) :=
  match l with
  | [] => Ok []
  | x :: l' => let* y := f x in let* ys := map_res f l' in Ok (y :: ys)
  end.

(** pdu.py:238-355 *)
Definition encodeSmsSubmitPdu (number text : str) (reference : Z) (v : validity) (smsc : option str)
    (requestStatusReport rejectDuplicates sendFlash : bool) : res (list pdu) :=
  let tpduFirstOctet := 1 in
  let* (vpBits, validityPeriod) := submit_validity v in
  let tpduFirstOctet := Z.lor tpduFirstOctet vpBits in
  let tpduFirstOctet := if rejectDuplicates then Z.lor tpduFirstOctet 4 else tpduFirstOctet in
  let tpduFirstOctet := if requestStatusReport then Z.lor tpduFirstOctet 32 else tpduFirstOctet in
  let* alphabet := submit_alphabet text in
  let len := Z.of_nat (length text) in
  let '(concat, pduCount, tpduFirstOctet) :=
    if MAX_MESSAGE_LENGTH alphabet <? len then
      let pduCount := len / MAX_MESSAGE_LENGTH alphabet + 1 in
      (Some pduCount, pduCount, Z.lor tpduFirstOctet 64)
    else (None, 1, tpduFirstOctet) in
  map_res (submit_part number text reference smsc tpduFirstOctet alphabet validityPeriod sendFlash concat)
          (seq 0 (Z.to_nat pduCount)).

(** ** Decoding *)

(** pdu.py:429-432: parse UDH fields.  [fuel]: one unit per element; every
    element takes at least two octets. *)
Fixpoint decode_udh (fuel : nat) (it : list Z) (ieLenRead udhLen : Z) : res (list ie * list Z) :=
  if ieLenRead <? udhLen then
    match fuel with
    | O => Err OutOfFuel
    | S fuel' =>
        let* (e, it) := ie_decode it in
        let* (es, it) := decode_udh fuel' it (ieLenRead + ie_len e) udhLen in
        Ok (e :: es, it)
    end
  else Ok ([], it).

(** pdu.py:420-454: (udh or None, text).  Nothing is read after the user data,
    so the rest of the iterator is dropped. *)
Definition decodeUserData (it : list Z) (userDataLen dataCoding : Z) (udhPresent : bool)
  : res (option (list ie) * str) :=
  let* (udh, udhLen, it) :=
    if udhPresent then
      let* (udhLen, it) := next it in
      let* (ies, it) := decode_udh (S (length it)) it 0 udhLen in
      Ok (Some ies, udhLen, it)
    else Ok (None, 0, it) in
  if dataCoding =? 0 then
    let* (prevOctet, shift, it) :=
      if udhPresent then
        let* (p, it) := next it in
        Ok (Some p, ((udhLen + 1) * 8) mod 7 + 1, it)
      else Ok (None, 7, it) in
    let* (septets, _) := unpackSeptets it (Some userDataLen) prevOctet shift in
    let* text := decodeGsm7 septets in
    Ok (udh, text)
  else if dataCoding =? 2 then
    let (text, _) := decodeUcs2 it userDataLen in Ok (udh, text)
  else Ok (udh, it).     (* unichr(b) for every remaining octet *)

(** The validity entry of the result dict *)
Inductive dvalidity := DVNone | DVRelative (t : timedelta) | DVAbsolute (t : datetime).

(** The dict returned by decodeSmsPdu, by message type. *)
Inductive sms_body :=
| SmsDeliver (number : option str) (protocol_id : Z) (time : datetime) (udh : option (list ie)) (text : str)
| SmsSubmit (reference : Z) (number : option str) (protocol_id : Z) (val : dvalidity) (udh : option (list ie)) (text : str)
| SmsStatusReport (reference : Z) (number : option str) (time discharge : datetime) (status : Z).
Record sms := mk_sms { sms_smsc : option str; sms_tpdu_length : Z; sms_type : sms_body }.

(** pdu.py:373-418, for a bytearray argument *)
Definition decodeSmsPdu_bytes (data : bytes) : res sms :=
  let it := data in
  let* ((smscNumber, smscBytesRead), it) := decodeAddressField it true in
  let tpdu_length := Z.of_nat (length data) - smscBytesRead in
  let* (first, it) := next it in
  let pduType := Z.land first 3 in
  let udhPresent := negb (Z.land first 64 =? 0) in
  let* body :=
    if pduType =? 0 then
      let* ((number, _), it) := decodeAddressField it false in
      let* (pid, it) := next it in
      let* (dcs, it) := next it in
      let* (time, it) := decodeTimestamp it in
      let* (udl, it) := next it in
      let* (udh, text) := decodeUserData it udl (decodeDataCoding dcs) udhPresent in
      Ok (SmsDeliver number pid time udh text)
    else if pduType =? 1 then
      let* (reference, it) := next it in
      let* ((number, _), it) := decodeAddressField it false in
      let* (pid, it) := next it in
      let* (dcs, it) := next it in
      let vpf := Z.shiftr (Z.land first 24) 3 in
      let* (val, it) :=
        if vpf =? 2 then
          let* (o, it) := next it in
          let* t := decodeRelativeValidityPeriod o in Ok (DVRelative t, it)
        else if vpf =? 3 then
          let* (t, it) := decodeTimestamp it in Ok (DVAbsolute t, it)
        else Ok (DVNone, it) in
      let* (udl, it) := next it in
      let* (udh, text) := decodeUserData it udl (decodeDataCoding dcs) udhPresent in
      Ok (SmsSubmit reference number pid val udh text)
    else if pduType =? 2 then
      let* (reference, it) := next it in
      let* ((number, _), it) := decodeAddressField it false in
      let* (time, it) := decodeTimestamp it in
      let* (discharge, it) := decodeTimestamp it in
      let* (status, it) := next it in
      Ok (SmsStatusReport reference number time discharge status)
    else Err EncodingError in
  Ok (mk_sms smscNumber tpdu_length body).

(** pdu.py:19 toByteArray of a str: codecs.decode(bytes(x,'ascii'), 'hex_codec').
    None models the exception (binascii.Error, UnicodeEncodeError). *)
Fixpoint unhexlify (s : str) : option bytes :=
  match s with
  | [] => Some []
  | a :: b :: s' =>
      match hexval a, hexval b, unhexlify s' with
      | Some x, Some y, Some r => Some (x * 16 + y :: r)
      | _, _, _ => None
      end
  | [_] => None
  end.

(** pdu.py:357-418, for a str argument *)
Definition decodeSmsPdu (s : str) : res sms :=
  match unhexlify s with
  | None => Err EncodingError
  | Some data => decodeSmsPdu_bytes data
  end.

(** pdu.py:230-235 Pdu.__str__: upper-case hex *)
Definition pdu_str (data : bytes) : str :=
  flat_map (fun b => [hexdigit_upper (b / 16); hexdigit_upper (b mod 16)]) data.
