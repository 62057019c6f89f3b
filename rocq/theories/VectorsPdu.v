(** The cases of the test suite of the repository, /repo/test/test_pdu.py, on the model: a check
    of the model, not of the properties. *)
From Verif Require Import Base DateModel PduModel.

(** test_pdu.py:16-45 TestSemiOctets *)
Example semi_1 : encodeSemiOctets (lit "15125551234") = Ok [81; 33; 85; 21; 50; 244] /\ fst (decodeSemiOctets [81; 33; 85; 21; 50; 244] None) = (lit "15125551234").
Proof. vm_compute. repeat split. Qed.
Example semi_2 : encodeSemiOctets (lit "123") = Ok [33; 243] /\ fst (decodeSemiOctets [33; 243] None) = (lit "123").
Proof. vm_compute. repeat split. Qed.
Example semi_3 : encodeSemiOctets (lit "1234") = Ok [33; 67] /\ fst (decodeSemiOctets [33; 67] None) = (lit "1234").
Proof. vm_compute. repeat split. Qed.
Example semi_4 : fst (decodeSemiOctets [16; 50; 84; 118; 152] (Some 9)) = (lit "0123456789").
Proof. vm_compute. repeat split. Qed.

(** test_pdu.py:46-114 TestGsm7 *)
Example gsm7_1 : encodeGsm7 (lit "123") false = Ok [49; 50; 51] /\ decodeGsm7 [49; 50; 51] = Ok (lit "123").
Proof. vm_compute. repeat split. Qed.
Example gsm7_2 : packSeptets [49; 50; 51] 0 = Ok [49; 217; 12].
Proof. vm_compute. repeat split. Qed.
Example gsm7_3 : unpackSeptets [49; 217; 12] None None 7 = Ok ([49; 50; 51], []).
Proof. vm_compute. repeat split. Qed.
Example gsm7_4 : unpackSeptets ([49; 217; 12] ++ [17; 250; 3; 99]) (Some 3) None 7 = Ok ([49; 50; 51], [17; 250; 3; 99]).
Proof. vm_compute. repeat split. Qed.
Example gsm7_5 : encodeGsm7 (lit "12345678") false = Ok [49; 50; 51; 52; 53; 54; 55; 56] /\ decodeGsm7 [49; 50; 51; 52; 53; 54; 55; 56] = Ok (lit "12345678").
Proof. vm_compute. repeat split. Qed.
Example gsm7_6 : packSeptets [49; 50; 51; 52; 53; 54; 55; 56] 0 = Ok [49; 217; 140; 86; 179; 221; 112].
Proof. vm_compute. repeat split. Qed.
Example gsm7_7 : unpackSeptets [49; 217; 140; 86; 179; 221; 112] None None 7 = Ok ([49; 50; 51; 52; 53; 54; 55; 56], []).
Proof. vm_compute. repeat split. Qed.
Example gsm7_8 : unpackSeptets ([49; 217; 140; 86; 179; 221; 112] ++ [17; 250; 3; 99]) (Some 7) None 7 = Ok ([49; 50; 51; 52; 53; 54; 55; 56], [17; 250; 3; 99]).
Proof. vm_compute. repeat split. Qed.
Example gsm7_9 : encodeGsm7 (lit "123456789") false = Ok [49; 50; 51; 52; 53; 54; 55; 56; 57] /\ decodeGsm7 [49; 50; 51; 52; 53; 54; 55; 56; 57] = Ok (lit "123456789").
Proof. vm_compute. repeat split. Qed.
Example gsm7_10 : packSeptets [49; 50; 51; 52; 53; 54; 55; 56; 57] 0 = Ok [49; 217; 140; 86; 179; 221; 112; 57].
Proof. vm_compute. repeat split. Qed.
Example gsm7_11 : unpackSeptets [49; 217; 140; 86; 179; 221; 112; 57] None None 7 = Ok ([49; 50; 51; 52; 53; 54; 55; 56; 57], []).
Proof. vm_compute. repeat split. Qed.
Example gsm7_12 : unpackSeptets ([49; 217; 140; 86; 179; 221; 112; 57] ++ [17; 250; 3; 99]) (Some 8) None 7 = Ok ([49; 50; 51; 52; 53; 54; 55; 56; 57], [17; 250; 3; 99]).
Proof. vm_compute. repeat split. Qed.
Example gsm7_13 : encodeGsm7 (lit "Hello World!") false = Ok [72; 101; 108; 108; 111; 32; 87; 111; 114; 108; 100; 33] /\ decodeGsm7 [72; 101; 108; 108; 111; 32; 87; 111; 114; 108; 100; 33] = Ok (lit "Hello World!").
Proof. vm_compute. repeat split. Qed.
Example gsm7_14 : packSeptets [72; 101; 108; 108; 111; 32; 87; 111; 114; 108; 100; 33] 0 = Ok [200; 50; 155; 253; 6; 93; 223; 114; 54; 57; 4].
Proof. vm_compute. repeat split. Qed.
Example gsm7_15 : unpackSeptets [200; 50; 155; 253; 6; 93; 223; 114; 54; 57; 4] None None 7 = Ok ([72; 101; 108; 108; 111; 32; 87; 111; 114; 108; 100; 33], []).
Proof. vm_compute. repeat split. Qed.
Example gsm7_16 : unpackSeptets ([200; 50; 155; 253; 6; 93; 223; 114; 54; 57; 4] ++ [17; 250; 3; 99]) (Some 11) None 7 = Ok ([72; 101; 108; 108; 111; 32; 87; 111; 114; 108; 100; 33], [17; 250; 3; 99]).
Proof. vm_compute. repeat split. Qed.
Example gsm7_17 : encodeGsm7 (lit "[{abc}]~") false = Ok [27; 60; 27; 40; 97; 98; 99; 27; 41; 27; 62; 27; 61] /\ decodeGsm7 [27; 60; 27; 40; 97; 98; 99; 27; 41; 27; 62; 27; 61] = Ok (lit "[{abc}]~").
Proof. vm_compute. repeat split. Qed.
Example gsm7_18 : packSeptets [27; 60; 27; 40; 97; 98; 99; 27; 41; 27; 62; 27; 61] 0 = Ok [27; 222; 6; 21; 22; 143; 55; 169; 141; 111; 211; 3].
Proof. vm_compute. repeat split. Qed.
Example gsm7_19 : unpackSeptets [27; 222; 6; 21; 22; 143; 55; 169; 141; 111; 211; 3] None None 7 = Ok ([27; 60; 27; 40; 97; 98; 99; 27; 41; 27; 62; 27; 61], []).
Proof. vm_compute. repeat split. Qed.
Example gsm7_20 : unpackSeptets ([27; 222; 6; 21; 22; 143; 55; 169; 141; 111; 211; 3] ++ [17; 250; 3; 99]) (Some 12) None 7 = Ok ([27; 60; 27; 40; 97; 98; 99; 27; 41; 27; 62; 27; 61], [17; 250; 3; 99]).
Proof. vm_compute. repeat split. Qed.
Example gsm7_21 : encodeGsm7 (lit "123456789012345678901234567890") false = Ok [49; 50; 51; 52; 53; 54; 55; 56; 57; 48; 49; 50; 51; 52; 53; 54; 55; 56; 57; 48; 49; 50; 51; 52; 53; 54; 55; 56; 57; 48] /\ decodeGsm7 [49; 50; 51; 52; 53; 54; 55; 56; 57; 48; 49; 50; 51; 52; 53; 54; 55; 56; 57; 48; 49; 50; 51; 52; 53; 54; 55; 56; 57; 48] = Ok (lit "123456789012345678901234567890").
Proof. vm_compute. repeat split. Qed.
Example gsm7_22 : packSeptets [49; 50; 51; 52; 53; 54; 55; 56; 57; 48; 49; 50; 51; 52; 53; 54; 55; 56; 57; 48; 49; 50; 51; 52; 53; 54; 55; 56; 57; 48] 0 = Ok [49; 217; 140; 86; 179; 221; 112; 57; 88; 76; 54; 163; 213; 108; 55; 92; 14; 22; 147; 205; 104; 53; 219; 13; 151; 131; 1].
Proof. vm_compute. repeat split. Qed.
Example gsm7_23 : unpackSeptets [49; 217; 140; 86; 179; 221; 112; 57; 88; 76; 54; 163; 213; 108; 55; 92; 14; 22; 147; 205; 104; 53; 219; 13; 151; 131; 1] None None 7 = Ok ([49; 50; 51; 52; 53; 54; 55; 56; 57; 48; 49; 50; 51; 52; 53; 54; 55; 56; 57; 48; 49; 50; 51; 52; 53; 54; 55; 56; 57; 48], []).
Proof. vm_compute. repeat split. Qed.
Example gsm7_24 : unpackSeptets ([49; 217; 140; 86; 179; 221; 112; 57; 88; 76; 54; 163; 213; 108; 55; 92; 14; 22; 147; 205; 104; 53; 219; 13; 151; 131; 1] ++ [17; 250; 3; 99]) (Some 27) None 7 = Ok ([49; 50; 51; 52; 53; 54; 55; 56; 57; 48; 49; 50; 51; 52; 53; 54; 55; 56; 57; 48; 49; 50; 51; 52; 53; 54; 55; 56; 57; 48], [17; 250; 3; 99]).
Proof. vm_compute. repeat split. Qed.
Example gsm7_25 : encodeGsm7 [123; 229; 934; 915; 923; 937; 928; 936; 931; 920; 8364; 125] false = Ok [27; 40; 15; 18; 19; 20; 21; 22; 23; 24; 25; 27; 101; 27; 41] /\ decodeGsm7 [27; 40; 15; 18; 19; 20; 21; 22; 23; 24; 25; 27; 101; 27; 41] = Ok [123; 229; 934; 915; 923; 937; 928; 936; 931; 920; 8364; 125].
Proof. vm_compute. repeat split. Qed.
Example gsm7_26 : packSeptets [27; 40; 15; 18; 19; 20; 21; 22; 23; 24; 25; 27; 101; 27; 41] 0 = Ok [27; 212; 67; 50; 161; 84; 44; 23; 76; 102; 83; 222; 164; 0].
Proof. vm_compute. repeat split. Qed.
Example gsm7_27 : unpackSeptets [27; 212; 67; 50; 161; 84; 44; 23; 76; 102; 83; 222; 164; 0] None None 7 = Ok ([27; 40; 15; 18; 19; 20; 21; 22; 23; 24; 25; 27; 101; 27; 41], []).
Proof. vm_compute. repeat split. Qed.
Example gsm7_28 : unpackSeptets ([27; 212; 67; 50; 161; 84; 44; 23; 76; 102; 83; 222; 164; 0] ++ [17; 250; 3; 99]) (Some 14) None 7 = Ok ([27; 40; 15; 18; 19; 20; 21; 22; 23; 24; 25; 27; 101; 27; 41], [17; 250; 3; 99]).
Proof. vm_compute. repeat split. Qed.
Example gsm7_29 : encodeGsm7 [97; 91; 93; 123; 125; 8364] false = Ok [97; 27; 60; 27; 62; 27; 40; 27; 41; 27; 101] /\ decodeGsm7 [97; 27; 60; 27; 62; 27; 40; 27; 41; 27; 101] = Ok [97; 91; 93; 123; 125; 8364].
Proof. vm_compute. repeat split. Qed.
Example gsm7_30 : packSeptets [97; 27; 60; 27; 62; 27; 40; 27; 41; 27; 101] 0 = Ok [225; 13; 111; 227; 219; 160; 54; 169; 77; 25].
Proof. vm_compute. repeat split. Qed.
Example gsm7_31 : unpackSeptets [225; 13; 111; 227; 219; 160; 54; 169; 77; 25] None None 7 = Ok ([97; 27; 60; 27; 62; 27; 40; 27; 41; 27; 101], []).
Proof. vm_compute. repeat split. Qed.
Example gsm7_32 : unpackSeptets ([225; 13; 111; 227; 219; 160; 54; 169; 77; 25] ++ [17; 250; 3; 99]) (Some 10) None 7 = Ok ([97; 27; 60; 27; 62; 27; 40; 27; 41; 27; 101], [17; 250; 3; 99]).
Proof. vm_compute. repeat split. Qed.
Example gsm7_33 : encodeGsm7 [19990; 30028; 24744; 22909; 65281] false = Err ValueError.
Proof. vm_compute. repeat split. Qed.
Example gsm7_34 : encodeGsm7 [97; 19990; 30028; 98; 24744; 99; 22909; 65281] true = Ok [97; 98; 99].
Proof. vm_compute. repeat split. Qed.

(** test_pdu.py:115-134 TestUcs2 *)
Example ucs2_1 : encodeUcs2 [12354; 21494; 33865] = Ok [48; 66; 83; 246; 132; 73] /\ decodeUcs2 [48; 66; 83; 246; 132; 73] 6 = ([12354; 21494; 33865], []).
Proof. vm_compute. repeat split. Qed.
Example ucs2_2 : encodeUcs2 [12399; 12356] = Ok [48; 111; 48; 68] /\ decodeUcs2 [48; 111; 48; 68] 4 = ([12399; 12356], []).
Proof. vm_compute. repeat split. Qed.

(** test_pdu.py:135-188 address fields *)
Example address_1 : decodeAddressField [10; 145; 137; 103; 69; 35; 1] false = Ok (((Some (lit "+9876543210")), 7), []) /\ encodeAddressField (lit "+9876543210") false = Ok [10; 145; 137; 103; 69; 35; 1].
Proof. vm_compute. repeat split. Qed.
Example address_2 : decodeAddressField [10; 145; 137; 103; 69; 35; 1; 0; 0; 0] false = Ok (((Some (lit "+9876543210")), 7), [0; 0; 0]) /\ encodeAddressField (lit "+9876543210") false = Ok [10; 145; 137; 103; 69; 35; 1].
Proof. vm_compute. repeat split. Qed.
Example address_3 : decodeAddressField [9; 145; 137; 103; 69; 35; 241; 0; 0; 0] false = Ok (((Some (lit "+987654321")), 7), [0; 0; 0]) /\ encodeAddressField (lit "+987654321") false = Ok [9; 145; 137; 103; 69; 35; 241].
Proof. vm_compute. repeat split. Qed.
Example address_4 : decodeAddressField [11; 145; 114; 40; 25; 83; 57; 244] false = Ok (((Some (lit "+27829135934")), 8), []) /\ encodeAddressField (lit "+27829135934") false = Ok [11; 145; 114; 40; 25; 83; 57; 244].
Proof. vm_compute. repeat split. Qed.
Example address_5 : decodeAddressField [6; 208; 97; 241; 24] false = Ok (((Some (lit "abc")), 5), []) /\ encodeAddressField (lit "abc") false = Ok [6; 208; 97; 241; 24].
Proof. vm_compute. repeat split. Qed.
Example address_6 : decodeAddressField [6; 208; 97; 241; 24; 211; 241; 255; 0; 50] false = Ok (((Some (lit "abc")), 5), [211; 241; 255; 0; 50]) /\ encodeAddressField (lit "abc") false = Ok [6; 208; 97; 241; 24].
Proof. vm_compute. repeat split. Qed.
Example address_7 : decodeAddressField [14; 208; 70; 105; 208; 57; 124; 38; 167] false = Ok (((Some (lit "FRANCOIS")), 9), []) /\ encodeAddressField (lit "FRANCOIS") false = Ok [14; 208; 70; 105; 208; 57; 124; 38; 167].
Proof. vm_compute. repeat split. Qed.
Example address_8 : decodeAddressField [20; 208; 225; 13; 111; 227; 219; 160; 54; 169; 77; 25] false = Ok (((Some [97; 91; 93; 123; 125; 8364]), 12), []) /\ encodeAddressField [97; 91; 93; 123; 125; 8364] false = Ok [20; 208; 225; 13; 111; 227; 219; 160; 54; 169; 77; 25].
Proof. vm_compute. repeat split. Qed.
Example address_9 : decodeAddressField [10; 161; 16; 146; 153; 120; 86] false = Ok (((Some (lit "0129998765")), 7), []) /\ encodeAddressField (lit "0129998765") false = Ok [10; 161; 16; 146; 153; 120; 86].
Proof. vm_compute. repeat split. Qed.
Example address_10 : decodeAddressField [6; 145; 137; 103; 69; 35; 1] true = Ok (((Some (lit "+9876543210")), 7), []) /\ encodeAddressField (lit "+9876543210") true = Ok [6; 145; 137; 103; 69; 35; 1].
Proof. vm_compute. repeat split. Qed.
Example address_11 : decodeAddressField [6; 145; 137; 103; 69; 35; 1; 0; 0; 0] true = Ok (((Some (lit "+9876543210")), 7), [0; 0; 0]) /\ encodeAddressField (lit "+9876543210") true = Ok [6; 145; 137; 103; 69; 35; 1].
Proof. vm_compute. repeat split. Qed.
Example address_12 : decodeAddressField [6; 145; 137; 103; 69; 35; 241; 0; 0; 0] true = Ok (((Some (lit "+987654321")), 7), [0; 0; 0]) /\ encodeAddressField (lit "+987654321") true = Ok [6; 145; 137; 103; 69; 35; 241].
Proof. vm_compute. repeat split. Qed.
Example address_13 : decodeAddressField [6; 145; 114; 40; 25; 83; 57] true = Ok (((Some (lit "+2782913593")), 7), []) /\ encodeAddressField (lit "+2782913593") true = Ok [6; 145; 114; 40; 25; 83; 57].
Proof. vm_compute. repeat split. Qed.

(** test_pdu.py:189-217 TestRelativeValidityPeriod *)
Example validity_1 : encodeRelativeValidityPeriod (td_of_minutes 30) = Ok 5 /\ decodeRelativeValidityPeriod 5 = Ok (td_of_minutes 30).
Proof. vm_compute. repeat split. Qed.
Example validity_2 : encodeRelativeValidityPeriod (td_of_minutes 960) = Ok 151 /\ decodeRelativeValidityPeriod 151 = Ok (td_of_minutes 960).
Proof. vm_compute. repeat split. Qed.
Example validity_3 : encodeRelativeValidityPeriod (td_of_minutes 4320) = Ok 169 /\ decodeRelativeValidityPeriod 169 = Ok (td_of_minutes 4320).
Proof. vm_compute. repeat split. Qed.
Example validity_4 : encodeRelativeValidityPeriod (td_of_minutes 50400) = Ok 197 /\ decodeRelativeValidityPeriod 197 = Ok (td_of_minutes 50400).
Proof. vm_compute. repeat split. Qed.
Example validity_5 : decodeRelativeValidityPeriod 2048 = Err ValueError.
Proof. vm_compute. repeat split. Qed.
Example validity_6 : encodeRelativeValidityPeriod (td_of_hours (1000 * 7 * 24)) = Err ValueError.
Proof. vm_compute. repeat split. Qed.

(** test_pdu.py:218-272 time stamps *)
Example time_1 : encodeTimestamp (mk_datetime 2015 11 27 0 0 0 0 (Some (td_of_hours (0)))) = Ok [81; 17; 114; 0; 0; 0; 0] /\ decodeTimestamp [81; 17; 114; 0; 0; 0; 0] = Ok ((mk_datetime 2015 11 27 0 0 0 0 (Some (td_of_hours (0)))), []).
Proof. vm_compute. repeat split. Qed.
Example time_2 : encodeTimestamp (mk_datetime 2015 11 27 0 0 0 0 (Some (td_of_hours (2)))) = Ok [81; 17; 114; 0; 0; 0; 128] /\ decodeTimestamp [81; 17; 114; 0; 0; 0; 128] = Ok ((mk_datetime 2015 11 27 0 0 0 0 (Some (td_of_hours (2)))), []).
Proof. vm_compute. repeat split. Qed.
Example time_3 : encodeTimestamp (mk_datetime 2007 4 12 23 25 42 0 (Some (td_of_hours (8)))) = Ok [112; 64; 33; 50; 82; 36; 35] /\ decodeTimestamp [112; 64; 33; 50; 82; 36; 35] = Ok ((mk_datetime 2007 4 12 23 25 42 0 (Some (td_of_hours (8)))), []).
Proof. vm_compute. repeat split. Qed.
Example time_4 : encodeTimestamp (mk_datetime 2007 4 12 23 25 42 0 (Some (td_of_hours (-8)))) = Ok [112; 64; 33; 50; 82; 36; 43] /\ decodeTimestamp [112; 64; 33; 50; 82; 36; 43] = Ok ((mk_datetime 2007 4 12 23 25 42 0 (Some (td_of_hours (-8)))), []).
Proof. vm_compute. repeat split. Qed.
Example time_5 : encodeTimestamp (mk_datetime 2013 3 1 12 30 21 0 None) = Err ValueError.
Proof. vm_compute. repeat split. Qed.
Example time_6 : pduOffset (lit "08") = Ok (td_of_hours 2) /\ pduOffset (lit "B2") = Ok (td_of_hours (-8)).
Proof. vm_compute. repeat split. Qed.

(** test_pdu.py:273-346 information elements *)
Example element_1 : concat_encode 23 3 1 = Ok [0; 3; 23; 3; 1].
Proof. vm_compute. repeat split. Qed.
Example element_2 : option_map ie_special (match mk_InformationElement 0 3 [23; 3; 1] with Ok e => Some e | Err _ => None end) = Some (IEConcat 23 3 1).
Proof. vm_compute. repeat split. Qed.
Example element_3 : concat_encode 384 4 2 = Ok [8; 4; 1; 128; 4; 2].
Proof. vm_compute. repeat split. Qed.
Example element_4 : option_map ie_special (match mk_InformationElement 8 4 [1; 128; 4; 2] with Ok e => Some e | Err _ => None end) = Some (IEConcat 384 4 2).
Proof. vm_compute. repeat split. Qed.
Example element_5 : port_encode 100 50 = Ok [4; 2; 100; 50].
Proof. vm_compute. repeat split. Qed.
Example element_6 : option_map ie_special (match mk_InformationElement 4 2 [100; 50] with Ok e => Some e | Err _ => None end) = Some (IEPort 100 50).
Proof. vm_compute. repeat split. Qed.
Example element_7 : port_encode 1234 5222 = Ok [5; 4; 4; 210; 20; 102].
Proof. vm_compute. repeat split. Qed.
Example element_8 : option_map ie_special (match mk_InformationElement 5 4 [4; 210; 20; 102] with Ok e => Some e | Err _ => None end) = Some (IEPort 1234 5222).
Proof. vm_compute. repeat split. Qed.

(** test_pdu.py:350-365 encodeSmsSubmitPdu *)
Example submit_1 : option_map (map pdu_data) (match encodeSmsSubmitPdu (lit "+27820001111") (lit "Hello World!") 0 VNone None false false false with Ok l => Some l | Err _ => None end) = Some [[0; 1; 0; 11; 145; 114; 40; 0; 16; 17; 241; 0; 0; 12; 200; 50; 155; 253; 6; 93; 223; 114; 54; 57; 4]].
Proof. vm_compute. repeat split. Qed.
Example submit_2 : option_map (map pdu_data) (match encodeSmsSubmitPdu (lit "+27820001111") (lit "Flash SMS") 0 VNone None false true false with Ok l => Some l | Err _ => None end) = Some [[0; 5; 0; 11; 145; 114; 40; 0; 16; 17; 241; 0; 0; 9; 70; 118; 120; 142; 6; 77; 155; 83]].
Proof. vm_compute. repeat split. Qed.
Example submit_3 : option_map (map pdu_data) (match encodeSmsSubmitPdu (lit "+123456789") [19990; 30028; 24744; 22909; 65281] 0 (VRelative (td_of_hours (52 * 7 * 24))) (Some (lit "+44000000000")) false false false with Ok l => Some l | Err _ => None end) = Some [[7; 145; 68; 0; 0; 0; 0; 240; 17; 0; 9; 145; 33; 67; 101; 135; 249; 0; 8; 244; 10; 78; 22; 117; 76; 96; 168; 89; 125; 255; 1]].
Proof. vm_compute. repeat split. Qed.
Example submit_4 : option_map (map pdu_data) (match encodeSmsSubmitPdu (lit "0126541234") (lit "Test message: local numbers") 13 (VRelative (td_of_hours 72)) (Some (lit "12345")) true false false with Ok l => Some l | Err _ => None end) = Some [[4; 161; 33; 67; 245; 49; 13; 10; 161; 16; 98; 69; 33; 67; 0; 0; 169; 27; 212; 242; 156; 14; 106; 151; 231; 243; 240; 185; 172; 3; 177; 223; 227; 48; 27; 228; 174; 183; 197; 101; 249; 28]].
Proof. vm_compute. repeat split. Qed.
Example submit_5 : option_map (map pdu_data) (match encodeSmsSubmitPdu (lit "+27820001111") (lit "Timestamp validity test") 0 (VAbsolute (mk_datetime 2013 7 10 13 39 0 0 (Some (td_of_hours (2))))) None false false false with Ok l => Some l | Err _ => None end) = Some [[0; 25; 0; 11; 145; 114; 40; 0; 16; 17; 241; 0; 0; 49; 112; 1; 49; 147; 0; 128; 23; 212; 116; 187; 60; 167; 135; 219; 112; 144; 61; 204; 78; 147; 211; 244; 60; 136; 94; 158; 211; 1]].
Proof. vm_compute. repeat split. Qed.

(** test_pdu.py:366-457 decodeSmsPdu; of each result the fields that the test looks at *)
Example decode_1 : match decodeSmsPdu (lit "06917228195339040B917228214365F700003130805120618005D4F29C2E03") with Ok d => match sms_type d with SmsDeliver number pid time udh text => sms_smsc d = (Some (lit "+2782913593")) /\ number = (Some (lit "+27821234567")) /\ pid = 0 /\ time = (mk_datetime 2013 3 8 15 2 16 0 (Some (td_of_hours (2)))) /\ text = (lit "Test2") | _ => False end | Err _ => False end.
Proof. vm_compute. repeat split. Qed.
Example decode_2 : match decodeSmsPdu (lit "07915892000000F0040B915892214365F700007040213252242331493A283D0795C3F33C88FE06C9CB6132885EC6D341EDF27C1E3E97E7207B3A0C0A5241E377BB1D7693E72E") with Ok d => match sms_type d with SmsDeliver number pid time udh text => sms_smsc d = (Some (lit "+85290000000")) /\ number = (Some (lit "+85291234567")) /\ time = (mk_datetime 2007 4 12 23 25 42 0 (Some (td_of_hours (8)))) /\ text = (lit "It is easy to read text messages via AT commands.") | _ => False end | Err _ => False end.
Proof. vm_compute. repeat split. Qed.
Example decode_3 : match decodeSmsPdu (lit "06917228195339040B917228214365F70000313062315352800A800D8A5E98D337A910") with Ok d => match sms_type d with SmsDeliver number pid time udh text => number = (Some (lit "+27821234567")) /\ text = [64; 123; 116; 233; 115; 116; 125; 33] | _ => False end | Err _ => False end.
Proof. vm_compute. repeat split. Qed.
Example decode_4 : match decodeSmsPdu (lit "07911326040000F0310D0B911326880736F40000A90FF7FBDD454E87CDE1B0DB357EB701") with Ok d => match sms_type d with SmsSubmit reference number pid val udh text => sms_smsc d = (Some (lit "+31624000000")) /\ number = (Some (lit "+31628870634")) /\ val = DVRelative (td_of_hours 72) /\ text = (lit "www.diafaan.com") | _ => False end | Err _ => False end.
Proof. vm_compute. repeat split. Qed.
Example decode_5 : match decodeSmsPdu (lit "0006D60B911326880736F4111011719551401110117195714000") with Ok d => match sms_type d with SmsStatusReport reference number time discharge status => number = (Some (lit "+31628870634")) /\ reference = 214 | _ => False end | Err _ => False end.
Proof. vm_compute. repeat split. Qed.
Example decode_6 : match decodeSmsPdu (lit "0591721891F1400781721881F800003160526104848059050003C30101916536FB1DCABEEB2074D85E064941B19CAB060319A5C522289C96D3D3ED32286C0FA7D96131BBEC024941B19CAB0603DDD36C36A88C87A7E565D0DB0D82C55EB0DB4B068BCD5C20") with Ok d => match sms_type d with SmsDeliver number pid time udh text => sms_smsc d = (Some (lit "+2781191")) /\ number = (Some (lit "2781188")) /\ udh = Some [mk_ie 0 3 [195; 1; 1] (IEConcat 195 1 1)] /\ text = (lit "Hello!You have R 19.50 FREE airtime available. R 19.50 will expire on 01/07/2013. ") | _ => False end | Err _ => False end.
Proof. vm_compute. repeat split. Qed.
Example decode_7 : match decodeSmsPdu (lit "07914346466554F601000B914316565811F9000806304253F68449") with Ok d => match sms_type d with SmsSubmit reference number pid val udh text => sms_smsc d = (Some (lit "+34646456456")) /\ number = (Some (lit "+34616585119")) /\ text = [12354; 21494; 33865] | _ => False end | Err _ => False end.
Proof. vm_compute. repeat split. Qed.
Example decode_8 : match decodeSmsPdu (lit "0041010C910661345542F60008A0050003000301306F3044") with Ok d => match sms_type d with SmsSubmit reference number pid val udh text => sms_smsc d = None /\ number = (Some (lit "+60164355246")) /\ udh = Some [mk_ie 0 3 [0; 3; 1] (IEConcat 0 3 1)] /\ text = [12399; 12356] | _ => False end | Err _ => False end.
Proof. vm_compute. repeat split. Qed.
Example decode_9 : match decodeSmsPdu (lit "0591721891F101000B917228214365F700040C48656C6C6F20776F726C6421") with Ok d => match sms_type d with SmsSubmit reference number pid val udh text => sms_smsc d = (Some (lit "+2781191")) /\ number = (Some (lit "+27821234567")) /\ text = (lit "Hello world!") | _ => False end | Err _ => False end.
Proof. vm_compute. repeat split. Qed.
Example decode_10 : match decodeSmsPdu (lit "0019000B917228001011F100003170013193008017D474BB3CA787DB70903DCC4E93D3F43C885E9ED301") with Ok d => match sms_type d with SmsSubmit reference number pid val udh text => val = DVAbsolute (mk_datetime 2013 7 10 13 39 0 0 (Some (td_of_hours (2)))) /\ text = (lit "Timestamp validity test") | _ => False end | Err _ => False end.
Proof. vm_compute. repeat split. Qed.
Example decode_11 : match decodeSmsPdu (lit "0297F1061C0F910B487228297020F5317062419272803170624192138000") with Ok d => match sms_type d with SmsStatusReport reference number time discharge status => number = (Some (lit "+b08427829207025")) /\ reference = 28 /\ time = (mk_datetime 2013 7 26 14 29 27 0 (Some (td_of_hours (2)))) /\ discharge = (mk_datetime 2013 7 26 14 29 31 0 (Some (td_of_hours (2)))) | _ => False end | Err _ => False end.
Proof. vm_compute. repeat split. Qed.
Example decode_12 : match decodeSmsPdu (lit "07919762020033F1400DD0CDF2396C7EBB010008415072411084618C0500035602010053004D005300200063006F00640065003A00200034003800350036002C00200063006F006E006600690072006D006100740069006F006E0020006F00660020006100730073006F00630069006100740069006F006E0020006200650074007700650065006E0020006100630063006F0075006E007400200061006E00640020004D00650067") with Ok d => match sms_type d with SmsDeliver number pid time udh text => sms_smsc d = (Some (lit "+79262000331")) /\ number = (Some (lit "Megafon")) /\ time = (mk_datetime 2014 5 27 14 1 48 0 (Some (td_of_hours (4)))) /\ text = (lit "SMS code: 4856, confirmation of association between account and Meg") | _ => False end | Err _ => False end.
Proof. vm_compute. repeat split. Qed.

(** test_pdu.py:458-496 *)
Example long_1 : option_map (map (fun p => pdu_str (pdu_data p))) (match encodeSmsSubmitPdu (lit "+15125551234") (lit "Lorem ipsum dolor sit amet, consectetur adipisicing elit, sed do eiusmod tempor incididunt ut labore et dolore magna aliqua.Ut enim ad minim veniam, quinostrud exercitation ullamco laboris nisi ut aliquip ex ea commodo consequat.Duis aute irure dolor in reprehenderit in voluptate velit esse cillum doloe eu fugiat nulla pariatur.Excepteur sint occaecat cupidatat non proident, sunt in culpa qui officia deserunt mollit anim id est laborum") 0 VNone None false true false with Ok l => Some l | Err _ => None end) = Some [(lit "0045000B915121551532F40000A0050003000301986F79B90D4AC3E7F53688FC66BFE5A0799A0E0AB7CB741668FC76CFCB637A995E9783C2E4343C3D4F8FD3EE33A8CC4ED359A079990C22BF41E5747DDE7E9341F4721BFE9683D2EE719A9C26D7DD74509D0E6287C56F791954A683C86FF65B5E06B5C36777181466A7E3F5B0AB4A0795DDE936284C06B5D3EE741B642FBBD3E1360B14AFA7DD"); (lit "0045000B915121551532F40000A0050003000302DE73BABC4E0695F165F9384D0FD3D36F37A8CE6687DBE337881D16BFE5E939C89D9EA741753A28CC4EC7EB6938A88C0795C3A0F1BBDD7E93DFA0F1DB3D2FC7EB61BA8B584FCF41E13ABD0C4ACBEBF23288FC66BFE5A0B41B242FC3E56574D94D2ECBD37450DA0DB2BFD975383D4C2F83EC65769A0E2ACFE765D038CD66D7DB20F29BFD2E83CA"); (lit "0045000B915121551532F400008C050003000303EA2073FD9C0ED341EE3A9B1D06C1C3F274985E97BB8AF871194E2FD7E5A079DA4D07BDC7E370791CA683C675789A1CA687E920F7DB0D82CBDF6972D94D6781E675371D947683C675363C0C8AD7D3A0B7D99C1EA7C32072795E96D7DD7450FBCD66A7E9A0B03BDD06A5C9A0F29C0E6287C56F79BD0D")].
Proof. vm_compute. repeat split. Qed.
Example bad_2 : encodeSmsSubmitPdu (lit "123") (lit "abc") 0 VOther None true false false = Err TypeError.
Proof. vm_compute. repeat split. Qed.
Example bad_3 : decodeSmsPdu (lit "0043010C910661345542F60008A0050003000301306F3044") = Err EncodingError.
Proof. vm_compute. repeat split. Qed.
Example bad_4 : decodeSmsPdu (lit "AFSDSDF LJJFKLDJKLFJ# #$KJLKJL SF") = Err EncodingError /\ decodeSmsPdu (lit "AEFDSDFSDFSDFS") = Err EncodingError.
Proof. vm_compute. repeat split. Qed.
