(** * The test vectors of the repository, evaluated in the model.
    These are tests of the transcription, not proofs of properties: each unit test of /repo that does not
    need random keys or elliptic curves, with its input and its assertions, and examples of RFCs. *)
From Verif Require Import Base Buffer Fqdn Header Types RDataBasic Bitmap Svcb RDataSec RData Packet Api Misc Dnssec Base64 Sha Rsa.

(** All features, overflow checks (the test profile). *)
Definition t_cfg : cfg := mkcfg true true true.
(** A hash without collisions in place of the 64-bit one. *)
Definition t_hash : hasher := fun f => fold_left (fun a l => fold_left (fun b o => b * 257 + (o + 1)) l (a * 257)) f 1.
Definition is_ok {A} (r : res A) : bool := match r with Ok _ => true | _ => false end.
Definition checks {A} (r : res A) (f : A -> Prop) : Prop := match r with Ok a => f a | _ => False end.
Definition summary (r : rr) := (fqdn_display (rr_name r), rr_type r, rr_class r, rr_ttl r, rdata_byte_size t_cfg (rr_data r), rdata_type (rr_data r)).
Definition counts (p : packet) : nat * nat * nat * nat :=
  (length (p_questions p), length (p_answers p), length (p_authorities p), length (p_additionals p)).

(** ** lib.rs:45-167, the sample messages. *)
Definition google_query : bytes := [0; 3; 1; 0; 0; 1; 0; 0; 0; 0; 0; 0; 6; 103; 111; 111; 103; 108; 101; 3;
  99; 111; 109; 0; 0; 1; 0; 1].
Definition google_reply_one : bytes := [0; 3; 129; 128; 0; 1; 0; 11; 0; 0; 0; 0; 6; 103; 111; 111; 103; 108;
  101; 3; 99; 111; 109; 0; 0; 1; 0; 1; 192; 12; 0; 1; 0; 1; 0; 0; 0; 4; 0; 4; 74; 125; 236; 35; 192; 12; 0; 1;
  0; 1; 0; 0; 0; 4; 0; 4; 74; 125; 236; 37; 192; 12; 0; 1; 0; 1; 0; 0; 0; 4; 0; 4; 74; 125; 236; 39; 192; 12;
  0; 1; 0; 1; 0; 0; 0; 4; 0; 4; 74; 125; 236; 32; 192; 12; 0; 1; 0; 1; 0; 0; 0; 4; 0; 4; 74; 125; 236; 40;
  192; 12; 0; 1; 0; 1; 0; 0; 0; 4; 0; 4; 74; 125; 236; 33; 192; 12; 0; 1; 0; 1; 0; 0; 0; 4; 0; 4; 74; 125;
  236; 41; 192; 12; 0; 1; 0; 1; 0; 0; 0; 4; 0; 4; 74; 125; 236; 34; 192; 12; 0; 1; 0; 1; 0; 0; 0; 4; 0; 4; 74;
  125; 236; 36; 192; 12; 0; 1; 0; 1; 0; 0; 0; 4; 0; 4; 74; 125; 236; 46; 192; 12; 0; 1; 0; 1; 0; 0; 0; 4; 0;
  4; 74; 125; 236; 38].
Definition google_reply_two : bytes := [213; 173; 129; 128; 0; 1; 0; 5; 0; 0; 0; 0; 3; 119; 119; 119; 6; 103;
  111; 111; 103; 108; 101; 3; 99; 111; 109; 0; 0; 1; 0; 1; 192; 12; 0; 5; 0; 1; 0; 0; 0; 5; 0; 8; 3; 119; 119;
  119; 1; 108; 192; 16; 192; 44; 0; 1; 0; 1; 0; 0; 0; 5; 0; 4; 66; 249; 91; 104; 192; 44; 0; 1; 0; 1; 0; 0; 0;
  5; 0; 4; 66; 249; 91; 99; 192; 44; 0; 1; 0; 1; 0; 0; 0; 5; 0; 4; 66; 249; 91; 103; 192; 44; 0; 1; 0; 1; 0;
  0; 0; 5; 0; 4; 66; 249; 91; 147].
Definition iphone : bytes := [0; 0; 132; 0; 0; 0; 0; 11; 0; 0; 0; 6; 15; 105; 80; 104; 111; 110; 101; 32; 118;
  111; 110; 32; 84; 105; 109; 111; 7; 95; 114; 100; 108; 105; 110; 107; 4; 95; 116; 99; 112; 5; 108; 111; 99;
  97; 108; 0; 0; 16; 128; 1; 0; 0; 17; 148; 0; 53; 22; 114; 112; 66; 65; 61; 49; 55; 58; 53; 65; 58; 52; 49;
  58; 48; 70; 58; 56; 70; 58; 57; 57; 11; 114; 112; 86; 114; 61; 52; 52; 48; 46; 49; 48; 17; 114; 112; 65; 68;
  61; 100; 54; 50; 49; 97; 50; 55; 49; 51; 98; 98; 55; 9; 95; 115; 101; 114; 118; 105; 99; 101; 115; 7; 95;
  100; 110; 115; 45; 115; 100; 4; 95; 117; 100; 112; 192; 41; 0; 12; 0; 1; 0; 0; 17; 148; 0; 2; 192; 28; 192;
  28; 0; 12; 0; 1; 0; 0; 17; 148; 0; 2; 192; 12; 15; 105; 80; 104; 111; 110; 101; 32; 118; 111; 110; 32; 84;
  105; 109; 111; 12; 95; 100; 101; 118; 105; 99; 101; 45; 105; 110; 102; 111; 192; 36; 0; 16; 0; 1; 0; 0; 17;
  148; 0; 13; 12; 109; 111; 100; 101; 108; 61; 78; 56; 52; 49; 65; 80; 192; 12; 0; 33; 128; 1; 0; 0; 0; 120;
  0; 24; 0; 0; 0; 0; 192; 4; 15; 105; 80; 104; 111; 110; 101; 45; 118; 111; 110; 45; 84; 105; 109; 111; 192;
  41; 1; 51; 1; 70; 1; 56; 1; 48; 1; 66; 1; 69; 1; 49; 1; 69; 1; 52; 1; 56; 1; 51; 1; 53; 1; 51; 1; 53; 1; 52;
  1; 49; 1; 48; 1; 48; 1; 48; 1; 48; 1; 48; 1; 48; 1; 48; 1; 48; 1; 48; 1; 48; 1; 48; 1; 48; 1; 48; 1; 56; 1;
  69; 1; 70; 3; 105; 112; 54; 4; 97; 114; 112; 97; 0; 0; 12; 128; 1; 0; 0; 0; 120; 0; 2; 192; 234; 2; 50; 49;
  3; 49; 55; 56; 3; 49; 54; 56; 3; 49; 57; 50; 7; 105; 110; 45; 97; 100; 100; 114; 193; 64; 0; 12; 128; 1; 0;
  0; 0; 120; 0; 2; 192; 234; 1; 49; 1; 54; 1; 53; 1; 68; 1; 51; 1; 55; 1; 50; 1; 70; 1; 67; 1; 57; 1; 49; 1;
  48; 1; 55; 1; 52; 1; 52; 1; 49; 1; 48; 1; 66; 1; 68; 1; 51; 1; 48; 1; 52; 1; 52; 1; 50; 1; 57; 1; 48; 1; 49;
  1; 56; 1; 50; 1; 48; 1; 65; 1; 50; 193; 60; 0; 12; 128; 1; 0; 0; 0; 120; 0; 2; 192; 234; 192; 234; 0; 28;
  128; 1; 0; 0; 0; 120; 0; 16; 254; 128; 0; 0; 0; 0; 0; 0; 20; 83; 83; 132; 225; 235; 8; 243; 192; 234; 0; 1;
  128; 1; 0; 0; 0; 120; 0; 4; 192; 168; 178; 21; 192; 234; 0; 28; 128; 1; 0; 0; 0; 120; 0; 16; 42; 2; 129; 9;
  36; 64; 61; 176; 20; 71; 1; 156; 242; 115; 213; 97; 192; 12; 0; 47; 128; 1; 0; 0; 17; 148; 0; 9; 192; 12; 0;
  5; 0; 0; 128; 0; 64; 192; 252; 0; 47; 128; 1; 0; 0; 0; 120; 0; 6; 192; 252; 0; 2; 0; 8; 193; 82; 0; 47; 128;
  1; 0; 0; 0; 120; 0; 6; 193; 82; 0; 2; 0; 8; 193; 119; 0; 47; 128; 1; 0; 0; 0; 120; 0; 6; 193; 119; 0; 2; 0;
  8; 192; 234; 0; 47; 128; 1; 0; 0; 0; 120; 0; 8; 192; 234; 0; 4; 64; 0; 0; 8; 0; 0; 41; 5; 160; 0; 0; 17;
  148; 0; 18; 0; 4; 0; 14; 0; 14; 246; 175; 231; 138; 170; 230; 238; 176; 202; 144; 228; 227].
Definition mystery : bytes := [0; 0; 0; 0; 0; 5; 0; 0; 0; 7; 0; 1; 15; 87; 111; 104; 110; 194; 173; 122; 105;
  109; 109; 101; 114; 32; 84; 86; 15; 95; 99; 111; 109; 112; 97; 110; 105; 111; 110; 45; 108; 105; 110; 107;
  4; 95; 116; 99; 112; 5; 108; 111; 99; 97; 108; 0; 0; 255; 0; 1; 15; 87; 111; 104; 110; 194; 173; 122; 105;
  109; 109; 101; 114; 32; 84; 86; 8; 95; 97; 105; 114; 112; 108; 97; 121; 192; 44; 0; 255; 0; 1; 28; 52; 48;
  67; 66; 67; 48; 67; 68; 52; 49; 54; 68; 64; 87; 111; 104; 110; 194; 173; 122; 105; 109; 109; 101; 114; 32;
  84; 86; 5; 95; 114; 97; 111; 112; 192; 44; 0; 255; 0; 1; 29; 55; 48; 45; 51; 53; 45; 54; 48; 45; 54; 51; 46;
  49; 32; 87; 111; 104; 110; 194; 173; 122; 105; 109; 109; 101; 114; 32; 84; 86; 12; 95; 115; 108; 101; 101;
  112; 45; 112; 114; 111; 120; 121; 4; 95; 117; 100; 112; 192; 49; 0; 255; 0; 1; 13; 87; 111; 104; 110; 122;
  105; 109; 109; 101; 114; 45; 84; 86; 192; 49; 0; 255; 128; 1; 192; 12; 0; 33; 0; 1; 0; 0; 0; 120; 0; 8; 0;
  0; 0; 0; 192; 1; 192; 186; 192; 60; 0; 33; 0; 1; 0; 0; 0; 120; 0; 8; 0; 0; 0; 0; 27; 88; 192; 186; 192; 91;
  0; 33; 0; 1; 0; 0; 0; 120; 0; 8; 0; 0; 0; 0; 27; 88; 192; 186; 192; 132; 0; 33; 0; 1; 0; 0; 0; 120; 0; 8; 0;
  0; 0; 0; 224; 43; 192; 186; 192; 186; 0; 28; 0; 1; 0; 0; 0; 120; 0; 16; 254; 128; 0; 0; 0; 0; 0; 0; 28; 128;
  158; 163; 99; 0; 198; 99; 192; 186; 0; 28; 0; 1; 0; 0; 0; 120; 0; 16; 42; 2; 129; 9; 36; 64; 61; 176; 24;
  141; 142; 89; 200; 125; 229; 119; 192; 186; 0; 1; 0; 1; 0; 0; 0; 120; 0; 4; 192; 168; 178; 32; 0; 0; 41; 5;
  160; 0; 0; 17; 148; 0; 18; 0; 4; 0; 14; 0; 186; 64; 203; 192; 205; 65; 109; 64; 203; 192; 205; 65; 107].
Definition mdns_nsec : bytes := [0; 0; 132; 0; 0; 0; 0; 1; 0; 0; 0; 1; 9; 80; 105; 101; 116; 32; 240; 159;
  171; 168; 15; 95; 99; 111; 109; 112; 97; 110; 105; 111; 110; 45; 108; 105; 110; 107; 4; 95; 116; 99; 112; 5;
  108; 111; 99; 97; 108; 0; 0; 16; 128; 1; 0; 0; 17; 148; 0; 130; 7; 114; 112; 77; 97; 99; 61; 48; 17; 114;
  112; 72; 78; 61; 101; 97; 51; 100; 51; 100; 57; 100; 56; 99; 50; 98; 12; 114; 112; 70; 108; 61; 48; 120; 51;
  48; 48; 48; 48; 17; 114; 112; 72; 65; 61; 100; 51; 56; 98; 97; 55; 56; 99; 102; 52; 97; 54; 13; 114; 112;
  86; 114; 61; 53; 48; 48; 46; 54; 48; 46; 52; 17; 114; 112; 65; 68; 61; 55; 101; 57; 98; 51; 53; 52; 49; 52;
  56; 56; 55; 17; 114; 112; 72; 73; 61; 57; 54; 57; 101; 48; 97; 48; 51; 53; 53; 52; 51; 22; 114; 112; 66; 65;
  61; 48; 68; 58; 52; 57; 58; 48; 56; 58; 67; 66; 58; 52; 49; 58; 53; 68; 192; 12; 0; 47; 128; 1; 0; 0; 17;
  148; 0; 9; 192; 12; 0; 5; 0; 0; 128; 0; 64].

(** lib.rs:169-179. *)
Example parse_query_from_github : is_ok (packet_try_from t_cfg google_reply_two) = true.
Proof. vm_compute. reflexivity. Qed.
Example parse_simple_query_packet : is_ok (packet_try_from t_cfg google_query) = true.
Proof. vm_compute. reflexivity. Qed.

(** lib.rs:181-204. *)
Example build_query_correct : checks (let! p := add_question t_cfg packet_default (question_new (fqdn_new [95; 115; 114; 118; 46; 95; 117; 100; 112; 46; 108; 111; 99; 97; 108]) (QT TXT) QIN) in
    let! p' := add_question t_cfg p (question_new (fqdn_from_strs [[95; 115; 114; 118; 50]; [95; 117; 100; 112]; [108; 111; 99; 97; 108]]) (QT TXT) QIN) in
    let! b := packet_to_bytes t_cfg p' in packet_try_from t_cfg b)
  (fun p => map (fun q => fqdn_display (q_name q)) (p_questions p) = [[95; 115; 114; 118; 46; 95; 117; 100; 112; 46; 108; 111; 99; 97; 108]; [95; 115; 114; 118; 50; 46; 95; 117; 100; 112; 46; 108; 111; 99; 97; 108]]).
Proof. vm_compute. reflexivity. Qed.

(** lib.rs:206-218. *)
Example parse_query_google_com : checks (packet_try_from t_cfg google_query) (fun p =>
    p_questions p = [mkQ (fqdn_new [103; 111; 111; 103; 108; 101; 46; 99; 111; 109]) (QT A) QIN false] /\
    map (fun q => fqdn_display (q_name q)) (p_questions p) = [[103; 111; 111; 103; 108; 101; 46; 99; 111; 109]] /\
    packet_to_bytes_compressed t_cfg t_hash p = Ok google_query).
Proof. vm_compute. repeat split. Qed.
(** lib.rs:220-235. *)
Example build_query_google_com :
  packet_to_bytes t_cfg (packet_with_questions 3 true [question_new (fqdn_new [103; 111; 111; 103; 108; 101; 46; 99; 111; 109]) (QT A) QIN]) = Ok google_query.
Proof. vm_compute. reflexivity. Qed.

(** lib.rs:237-268. *)
Example parse_reply_google_com : checks (packet_try_from t_cfg google_reply_one) (fun p =>
    counts p = (1, 11, 0, 0)%nat /\
    map summary (p_answers p) = repeat ([103; 111; 111; 103; 108; 101; 46; 99; 111; 109], A, CIN, 4, Ok 4%nat, A) 11 /\
    option_map rr_data (hd_error (p_answers p)) = Some (DA 1249766435) /\
    packet_to_bytes_compressed t_cfg t_hash p = Ok google_reply_one).
Proof. vm_compute. repeat split. Qed.

(** lib.rs:270-321. *)
Example parse_complex_reply_google_com : checks (packet_try_from t_cfg google_reply_two) (fun p =>
    counts p = (1, 5, 0, 0)%nat /\ id (p_header p) = 54701 /\ header_opcode (p_header p) = StandardQuery /\
    recursion_desired (p_header p) = true /\ recursion_available (p_header p) = true /\
    header_response_code (p_header p) = Ok NoError /\ query_response (p_header p) = true /\ authoritative_answer (p_header p) = false /\
    p_questions p = [mkQ (fqdn_new [119; 119; 119; 46; 103; 111; 111; 103; 108; 101; 46; 99; 111; 109]) (QT A) QIN false] /\
    option_map rr_data (hd_error (p_answers p)) = Some (into_record_data (SCname (fqdn_new [119; 119; 119; 46; 108; 46; 103; 111; 111; 103; 108; 101; 46; 99; 111; 109]))) /\
    option_map (fun r => rdata_to_bytes t_cfg (rr_data r)) (hd_error (p_answers p)) =
      Some (Ok [3; 119; 119; 119; 1; 108; 6; 103; 111; 111; 103; 108; 101; 3; 99; 111; 109; 0]) /\
    option_map (fun r => rdata_byte_size t_cfg (rr_data r)) (hd_error (p_answers p)) = Some (Ok 18%nat) /\
    map summary (tl (p_answers p)) = repeat ([119; 119; 119; 46; 108; 46; 103; 111; 111; 103; 108; 101; 46; 99; 111; 109], A, CIN, 5, Ok 4%nat, A) 4 /\
    packet_to_bytes_compressed t_cfg t_hash p = Ok google_reply_two).
Proof. vm_compute. repeat split. Qed.

(** lib.rs:323-386. *)
Definition ip4 (a b c d : N) : N := ((a * 256 + b) * 256 + c) * 256 + d.
Definition google_header : header :=
  let h := set_opcode (mkheader 54701 flags0 0 0 0 0) StandardQuery in
  let h := set_response_code h NoError in let h := set_recursion_available h true in
  let h := set_recursion_desired h true in let h := set_query_response h true in set_authoritative_answer h false.
Example build_complex_reply_google_com :
  (let p := packet_set_header (packet_new_reply 3) google_header in
   let! p := add_question t_cfg p (question_new (fqdn_new [119; 119; 119; 46; 103; 111; 111; 103; 108; 101; 46; 99; 111; 109]) (QT A) QIN) in
   let! p := add_answer t_cfg p (rr_new (fqdn_new [119; 119; 119; 46; 103; 111; 111; 103; 108; 101; 46; 99; 111; 109]) CNAME CIN 5 (into_record_data (SCname (fqdn_new [119; 119; 119; 46; 108; 46; 103; 111; 111; 103; 108; 101; 46; 99; 111; 109])))) in
   let! p := add_answer t_cfg p (rr_new (fqdn_new [119; 119; 119; 46; 108; 46; 103; 111; 111; 103; 108; 101; 46; 99; 111; 109]) A CIN 5 (DA (ip4 66 249 91 104))) in
   let! p := add_answer t_cfg p (rr_new (fqdn_new [119; 119; 119; 46; 108; 46; 103; 111; 111; 103; 108; 101; 46; 99; 111; 109]) A CIN 5 (DA (ip4 66 249 91 99))) in
   let! p := add_answer t_cfg p (rr_new (fqdn_new [119; 119; 119; 46; 108; 46; 103; 111; 111; 103; 108; 101; 46; 99; 111; 109]) A CIN 5 (DA (ip4 66 249 91 103))) in
   let! p := add_answer t_cfg p (rr_new (fqdn_new [119; 119; 119; 46; 108; 46; 103; 111; 111; 103; 108; 101; 46; 99; 111; 109]) A CIN 5 (DA (ip4 66 249 91 147))) in
   packet_to_bytes_compressed t_cfg t_hash p) = Ok google_reply_two.
Proof. vm_compute. reflexivity. Qed.

(** lib.rs:388-408. *)
Example parse_mystery : checks (packet_try_from t_cfg mystery) (fun p =>
    (ques_count (p_header p), ans_count (p_header p), auth_count (p_header p), add_count (p_header p)) = (5, 0, 7, 1) /\
    counts p = (5, 0, 7, 1)%nat /\ packet_to_bytes_compressed t_cfg t_hash p = Ok mystery).
Proof. vm_compute. repeat split. Qed.
(** lib.rs:410-430. *)
Example parse_iphone_mds_query_response : checks (packet_try_from t_cfg iphone) (fun p =>
    (ques_count (p_header p), ans_count (p_header p), auth_count (p_header p), add_count (p_header p)) = (0, 11, 0, 6) /\
    counts p = (0, 11, 0, 6)%nat /\ packet_to_bytes_compressed t_cfg t_hash p = Ok iphone).
Proof. vm_compute. repeat split. Qed.
(** lib.rs:432-462. *)
Example parse_something_with_nsec : checks (packet_try_from t_cfg mdns_nsec) (fun p =>
    header_opcode (p_header p) = StandardQuery /\ counts p = (0, 1, 0, 1)%nat /\
    map (fun r => (rr_type r, rr_class r, fqdn_display (rr_name r))) (p_answers p ++ p_additionals p) =
      [(TXT, CIN, [80; 105; 101; 116; 32; 240; 159; 171; 168; 46; 95; 99; 111; 109; 112; 97; 110; 105; 111; 110; 45; 108; 105; 110; 107; 46; 95; 116; 99; 112; 46; 108; 111; 99; 97; 108]); (NSEC, CIN, [80; 105; 101; 116; 32; 240; 159; 171; 168; 46; 95; 99; 111; 109; 112; 97; 110; 105; 111; 110; 45; 108; 105; 110; 107; 46; 95; 116; 99; 112; 46; 108; 111; 99; 97; 108])] /\
    packet_to_bytes_compressed t_cfg t_hash p = Ok mdns_nsec).
Proof. vm_compute. repeat split. Qed.

(** ** dnssec.rs:991-1046. *)
Example parse_nsec :
  (let! x := fst (nsec_try_from t_cfg (buf_from [0; 0; 6; 64; 0; 128; 8; 0; 3])) in Ok (ns_types x)) = Ok [A; TXT; AAAA; RRSIG; NSEC] /\
  (let! x := fst (nsec_try_from t_cfg (buf_from [0; 0; 7; 98; 0; 128; 8; 0; 3; 128])) in Ok (ns_types x)) =
    Ok [A; NS; SOA; TXT; AAAA; RRSIG; NSEC; DNSKEY].
Proof. vm_compute. split; reflexivity. Qed.
Example build_nsec : let x := mkNsec (fqdn_new [46]) [A; MX; RRSIG; NSEC; URI; CAA] in
  nsec_byte_size t_cfg x = Ok 12%nat /\ nsec_to_bytes t_cfg x = Ok [0; 0; 6; 64; 1; 0; 0; 0; 3; 1; 1; 192].
Proof. vm_compute. split; reflexivity. Qed.

(** ** tkey.rs:192-240. *)
Definition t_tkey : tkey := mkTkey (fqdn_new [56; 57; 110; 51; 109; 68; 103; 88; 48; 55; 50; 112; 112; 46; 115; 101; 114; 118; 101; 114; 49; 46; 101; 120; 97; 109; 112; 108; 101; 46; 99; 111; 109]) 12345 56789 TmDH TeNone [0; 1; 2; 3; 4; 5; 6; 7; 8; 9] [].
Definition t_tkey_bytes : bytes := [13; 56; 57; 110; 51; 109; 68; 103; 88; 48; 55; 50; 112; 112; 7; 115; 101;
  114; 118; 101; 114; 49; 7; 101; 120; 97; 109; 112; 108; 101; 3; 99; 111; 109; 0; 0; 0; 48; 57; 0; 0; 221;
  213; 0; 2; 0; 0; 0; 10; 0; 1; 2; 3; 4; 5; 6; 7; 8; 9; 0; 0].
Example tkey_parse : fst (tkey_try_from (buf_from t_tkey_bytes)) = Ok t_tkey.
Proof. vm_compute. reflexivity. Qed.
Example tkey_build : tkey_byte_size t_tkey = 61%nat /\ length (tkey_to_bytes t_tkey) = 61%nat /\ tkey_to_bytes t_tkey = t_tkey_bytes.
Proof. vm_compute. repeat split. Qed.
(** ** tsig.rs:163-212. *)
Definition t_tsig : tsig := mkTsig (fqdn_new [72; 77; 65; 67; 45; 77; 68; 53; 46; 83; 73; 71; 45; 65; 76; 71; 46; 82; 69; 71; 46; 73; 78; 84]) 1716494863 15 [0; 1; 2; 3; 4; 5; 6; 7; 8; 9] 1 TsNone [11; 22; 33].
Definition t_tsig_bytes : bytes := [8; 72; 77; 65; 67; 45; 77; 68; 53; 7; 83; 73; 71; 45; 65; 76; 71; 3; 82;
  69; 71; 3; 73; 78; 84; 0; 0; 0; 102; 79; 162; 15; 0; 15; 0; 10; 0; 1; 2; 3; 4; 5; 6; 7; 8; 9; 0; 1; 0; 0; 0;
  3; 11; 22; 33].
Example tsig_parse : fst (tsig_try_from (buf_from t_tsig_bytes)) = Ok t_tsig.
Proof. vm_compute. reflexivity. Qed.
Example tsig_build : tsig_byte_size t_tsig = (fqdn_byte_size (ts_alg t_tsig) + 6 + 5 * 2 + 10 + 3)%nat /\ tsig_to_bytes t_tsig = t_tsig_bytes.
Proof. vm_compute. split; reflexivity. Qed.
(** ** ipseckey.rs:146-177. *)
Definition t_key : bytes := [65; 81; 78; 82; 85; 51; 109; 71; 55; 84; 86; 84; 79; 50; 66; 107; 82; 52; 55;
  117; 115; 110; 116; 98; 49; 48; 50; 117; 70; 74; 116; 117; 103; 98; 111; 54; 66; 83; 71; 118; 103; 113; 116;
  52; 65; 81; 61; 61].
Example ipseckey_parse : let d := [10; 0; 2; 46] ++ t_key in
  checks (fst (ipseckey_try_from (buf_from d))) (fun x => gateway_type (ip_gw x) = 0 /\ ip_prec x = 10 /\ ip_alg x = AlgDSA /\ ip_gw x = GwNone /\
    ipseckey_byte_size x = length d /\ ipseckey_to_bytes x = d).
Proof. vm_compute. repeat split. Qed.
Example ipseckey_build : ipseckey_to_bytes (mkIpsec 10 AlgDSA (GwV4 (ip4 192 0 2 38)) t_key) =
  [10; 1; 2; 192; 0; 2; 38] ++ t_key.
Proof. vm_compute. reflexivity. Qed.
(** ** hip.rs:106-172. *)
Definition t_pk : bytes := [65; 119; 69; 65; 65; 98; 100; 120; 121; 104; 78; 117; 83; 117; 116; 99; 53; 69;
  77; 122; 120; 84; 115; 57; 76; 66; 80; 67; 73; 107; 79; 70; 72; 56; 99; 73; 118; 77; 52; 112; 57; 43; 76;
  114; 86; 52; 101; 49; 57; 87; 122; 75; 48; 48; 43; 67; 73; 54; 122; 66; 67; 81; 84; 100; 116; 87; 115; 117;
  120; 75; 98; 87; 73; 121; 56; 55; 85; 79; 111; 74; 84; 119; 107; 85; 115; 55; 108; 66; 117; 43; 85; 112;
  114; 49; 103; 115; 78; 114; 117; 116; 55; 57; 114; 121; 114; 97; 43; 98; 83; 82; 71; 81; 98; 49; 115; 108;
  73; 109; 65; 56; 89; 86; 74; 121; 117; 73; 68; 115; 106; 55; 107; 119; 122; 71; 55; 106; 110; 69; 82; 78;
  113; 110; 87; 120; 90; 52; 56; 65; 87; 107; 115; 107; 109; 100; 72; 97; 86; 68; 80; 52; 66; 99; 101; 108;
  114; 84; 73; 51; 114; 77; 88; 100; 88; 70; 53; 68].
Definition t_hit : bytes := [32; 1; 0; 16; 123; 26; 116; 223; 54; 86; 57; 204; 57; 241; 213; 120].
Example hip_parse : let d := [16; 2; 0; 176] ++ t_hit ++ t_pk ++ fqdn_to_bytes (fqdn_new [114; 118; 115; 49; 46; 101; 120; 97; 109; 112; 108; 101; 46; 99; 111; 109; 46]) in
  checks (fst (hip_try_from (buf_from d))) (fun x => x = mkHip AlgDSA t_hit t_pk (Some [fqdn_new [114; 118; 115; 49; 46; 101; 120; 97; 109; 112; 108; 101; 46; 99; 111; 109; 46]]) /\
    hip_byte_size x = length d /\ hip_to_bytes x = d).
Proof. vm_compute. repeat split. Qed.
Example hip_build :
  hip_to_bytes (mkHip AlgDSA t_hit t_pk (Some [fqdn_new [114; 118; 115; 49; 46; 101; 120; 97; 109; 112; 108; 101; 46; 99; 111; 109; 46]; fqdn_new [114; 118; 115; 50; 46; 101; 120; 97; 109; 112; 108; 101; 46; 99; 111; 109; 46]])) =
  [16; 2; 0; 176] ++ t_hit ++ t_pk ++ [4; 114; 118; 115; 49; 7; 101; 120; 97; 109; 112; 108; 101; 3; 99; 111; 109; 0] ++ [4; 114; 118; 115; 50; 7; 101; 120; 97; 109; 112; 108; 101; 3; 99; 111; 109; 0].
Proof. vm_compute. reflexivity. Qed.
(** ** apl.rs:147-172. *)
Example apl_parse : fst (apl_try_from (buf_from [0; 1; 4; 132; 192; 168; 178; 12])) = Ok (mkApl 4 true (AfdV4 (ip4 192 168 178 12))).
Proof. vm_compute. reflexivity. Qed.
Example apl_build : let x := mkApl 4 true (AfdV4 (ip4 192 168 178 12)) in
  apl_byte_size x = 8%nat /\ apl_to_bytes x = [0; 1; 4; 132; 192; 168; 178; 12].
Proof. vm_compute. split; reflexivity. Qed.
(** ** svcb.rs:305-361.  [byte_size] really is 60 for the 48 octets (C24). *)
Example param_key_ordering : pkey_try_from 65432 = Ok (KPrivate 65432) /\ pkey_cmp KAlpn (KPrivate 65432) = Lt /\ pkey_cmp (KPrivate 65432) KAlpn = Gt.
Proof. vm_compute. repeat split. Qed.
Example svcb_parse : fst (svcb_try_from t_cfg (buf_from [0; 5; 4; 115; 118; 99; 52; 7; 101; 120; 97; 109; 112; 108; 101; 3; 110; 101; 116; 0; 0; 1; 0; 4; 3; 98; 97; 114; 0; 3; 0; 2; 31; 68; 0; 0; 0; 2; 0; 1])) =
  Ok (mkSvcb 5 (fqdn_new [115; 118; 99; 52; 46; 101; 120; 97; 109; 112; 108; 101; 46; 110; 101; 116; 46]) [PMandatory [KAlpn]; PAlpn [[98; 97; 114]]; PPort 8004]).
Proof. vm_compute. reflexivity. Qed.
Example svcb_build : let x := mkSvcb 10 (fqdn_new [102; 111; 111; 46; 101; 120; 97; 109; 112; 108; 101; 46; 111; 114; 103; 46])
    [PMandatory [KAlpn; KIpV4Hint]; PAlpn [[104; 50]; [104; 51; 45; 49; 57]]; PIpV4Hint (ip4 192 0 2 1)] in
  svcb_byte_size x = 60%nat /\ svcb_to_bytes t_cfg x = Ok [0; 10; 3; 102; 111; 111; 7; 101; 120; 97; 109; 112; 108; 101; 3; 111; 114; 103; 0; 0; 0; 0; 4; 0; 1; 0; 4; 0; 1; 0; 9; 2; 104; 50; 5; 104; 51; 45; 49; 57; 0; 4; 0; 4; 192; 0; 2; 1].
Proof. vm_compute. split; reflexivity. Qed.
(** ** dhcid.rs:138-181; in the second test SHA-256 is replaced by its value, in the third computed. *)
Definition t_dhcid : bytes := [0; 2; 1; 99; 111; 192; 184; 39; 28; 130; 130; 91; 177; 172; 92; 65; 207; 83;
  81; 170; 105; 180; 254; 189; 148; 232; 241; 124; 219; 149; 0; 13; 164; 140; 64].
Example dhcid_parse : fst (dhcid_try_from (buf_from t_dhcid)) = Ok (mkDhcid DUID (skipn 3 t_dhcid)).
Proof. vm_compute. reflexivity. Qed.
Example dhcid_build : forall sha256 : bytes -> bytes,
  sha256 ([0; 1; 0; 6; 65; 45; 241; 102; 1; 2; 3; 4; 5; 6] ++ [4; 99; 104; 105; 54; 7; 101; 120; 97; 109; 112; 108; 101; 3; 99; 111; 109; 0]) = skipn 3 t_dhcid ->
  let x := dhcid_new sha256 DUID [0; 1; 0; 6; 65; 45; 241; 102; 1; 2; 3; 4; 5; 6] (fqdn_new [99; 104; 105; 54; 46; 101; 120; 97; 109; 112; 108; 101; 46; 99; 111; 109]) in
  dhcid_byte_size x = 35%nat /\ dhcid_to_bytes x = t_dhcid.
Proof.
  intros sha H x. assert (E : dhcid_digest x = skipn 3 t_dhcid) by exact H. unfold dhcid_byte_size, dhcid_to_bytes. rewrite E.
  split; reflexivity.
Qed.
Example dhcid_build_computed : dhcid_to_bytes (dhcid_new sha_256 DUID [0; 1; 0; 6; 65; 45; 241; 102; 1; 2; 3; 4; 5; 6]
  (fqdn_new [99; 104; 105; 54; 46; 101; 120; 97; 109; 112; 108; 101; 46; 99; 111; 109])) = t_dhcid.
Proof. vm_compute. reflexivity. Qed.
(** ** fqdn.rs:250-303. *)
Example fqdn_link_local : fqdn_is_link_local (fqdn_new [95; 97; 105; 114; 112; 108; 97; 121; 46; 95; 116; 99; 112; 46; 108; 111; 99; 97; 108]) = true /\ fqdn_is_link_local (fqdn_new [103; 111; 111; 103; 108; 101; 46; 99; 111; 109]) = false.
Proof. vm_compute. split; reflexivity. Qed.
Example fqdn_root : Forall (fun s => fqdn_byte_size (fqdn_new s) = 1%nat /\ fqdn_to_bytes (fqdn_new s) = [0] /\
  fqdn_display (fqdn_new s) = [] /\ fqdn_is_root (fqdn_new s) = true) [[46]; []].
Proof. repeat constructor. Qed.
Example fqdn_ordering : let a := fqdn_new [103; 111; 111; 103; 108; 101; 46; 99; 111; 109] in
  fqdn_cmp a (fqdn_new [119; 119; 119; 46; 103; 111; 111; 103; 108; 101; 46; 99; 111; 109]) = Lt /\ fqdn_cmp a (fqdn_new [97; 97; 97; 46; 100; 101]) = Gt /\
  fqdn_cmp a (fqdn_new [103; 111; 111; 103; 108; 101; 46; 100; 101]) = Lt /\ fqdn_cmp a a = Eq.
Proof. vm_compute. repeat split. Qed.
(** ** buffer.rs:198-207. *)
Example slice_range :
  fst ((_ <- advance 2 ;; a <- peek_bytes 3 ;; b <- extract_bytes 3 ;; x <- peek_bytes 4 ;; ret (a, b, x))
    (buf_from [1; 2; 3; 4; 5; 6; 7; 8; 9; 0])) = Ok ([3; 4; 5], [3; 4; 5], [6; 7; 8; 9]).
Proof. vm_compute. reflexivity. Qed.

(** ** dnssec.rs:1049-1070 (build_ds), with SHA-1 computed. *)
Definition t_fips : prims :=
  mkPrims (fun m => m) sha_1 sha_256 (fun m => m) (fun m => m)
    (fun _ _ => None) (fun _ _ _ _ => RsaBadKey) (fun _ _ => None) (fun _ _ _ _ => None) (fun _ _ => None) (fun _ _ => None)
    (crate_verify (fun _ _ => true)) (fun _ _ _ _ _ _ => None) (fun _ _ _ _ => false) (fun _ _ _ => false) (fun _ _ _ => None).
Definition t_ds_key : dnskey := mkDnskey true false 3 RSA_SHA256
  [3; 1; 0; 1; 195; 68; 83; 174; 203; 36; 142; 70; 18; 1; 125; 64; 179; 106; 44; 237; 82; 50; 173; 68; 118; 132; 58;
   19; 215; 252; 230; 22; 180; 147; 71; 176; 64; 96; 155; 151; 37; 182; 243; 126; 134; 137; 91; 38; 234; 79; 10; 175;
   145; 2; 34; 131; 9; 233; 246; 86; 127; 112; 144; 73; 15; 114; 113; 103; 211; 200; 225; 223; 152; 141; 222; 67;
   253; 66; 162; 248; 91; 219; 46; 27; 2; 98; 255; 211; 179; 225; 172; 190; 232; 205; 96; 86; 223; 0; 95; 51; 125;
   249; 22; 223; 113; 142; 213; 199; 63; 46; 243; 180; 38; 213; 246; 166; 120; 77; 80; 211; 91; 242; 50; 131; 67;
   226; 194; 10; 23; 85; 235; 51].
Example build_ds : exists d, ds_from_dnskey t_cfg t_fips (fqdn_new [109; 105; 101; 107; 46; 110; 108; 46]) t_ds_key DtSHA1 = Ok d /\ ds_tag d = 12051 /\
  hex_digest d = [66; 53; 49; 50; 49; 66; 68; 66; 53; 66; 56; 68; 56; 54; 68; 48; 67; 67; 53; 70; 70; 65; 70; 66; 65; 65; 65; 66;
   69; 50; 54; 67; 51; 69; 50; 48; 66; 65; 67; 49].
Proof. eexists. split; [vm_compute; reflexivity|]. split; vm_compute; reflexivity. Qed.
(** RFC 4034, 5.4, and RFC 4509, 2.3: the examples of DS records. *)
Definition rfc4034_key : dnskey := mkDnskey true false 3 RSA_SHA1
  [1; 3; 158; 138; 36; 116; 24; 227; 24; 144; 59; 33; 90; 132; 138; 207; 213; 243; 127; 2; 107; 212; 6; 45; 178; 108;
   119; 76; 105; 9; 104; 213; 213; 109; 248; 191; 218; 145; 230; 243; 109; 154; 39; 152; 136; 244; 19; 51; 53; 124;
   94; 96; 41; 153; 13; 16; 253; 245; 102; 48; 98; 165; 18; 118; 51; 38; 152; 10; 97; 93; 219; 241; 122; 5; 221; 252;
   206; 126; 95; 179; 171; 204; 160; 90; 49; 176; 149; 116; 82; 212; 82; 30; 131; 135; 7; 137; 6; 49; 21; 191; 151;
   246; 195; 8; 204; 245; 124; 220; 156; 231; 254; 16; 246; 237; 27; 208; 204; 6; 96; 3; 140; 80; 220; 219; 15; 235;
   150; 60; 47; 23].
Example rfc4034_ds : exists d, ds_from_dnskey t_cfg t_fips (fqdn_new [100; 115; 107; 101; 121; 46; 101; 120; 97; 109; 112; 108; 101; 46; 99; 111; 109; 46]) rfc4034_key DtSHA1 = Ok d /\ ds_tag d = 60485 /\
  hex_digest d = [50; 66; 66; 49; 56; 51; 65; 70; 53; 70; 50; 50; 53; 56; 56; 49; 55; 57; 65; 53; 51; 66; 48; 65; 57; 56; 54; 51;
   49; 70; 65; 68; 49; 65; 50; 57; 50; 49; 49; 56].
Proof. eexists. split; [vm_compute; reflexivity|]. split; vm_compute; reflexivity. Qed.
Example rfc4509_ds : exists d, ds_from_dnskey t_cfg t_fips (fqdn_new [100; 115; 107; 101; 121; 46; 101; 120; 97; 109; 112; 108; 101; 46; 99; 111; 109; 46]) rfc4034_key DtSHA256 = Ok d /\ ds_tag d = 60485 /\
  hex_digest d = [68; 52; 66; 55; 68; 53; 50; 48; 69; 55; 66; 66; 53; 70; 48; 70; 54; 55; 54; 55; 52; 65; 48; 67; 67; 69; 66; 49;
   69; 51; 69; 48; 54; 49; 52; 66; 57; 51; 67; 52; 70; 57; 69; 57; 57; 66; 56; 51; 56; 51; 70; 54; 65; 49; 69; 52;
   52; 54; 57; 68; 65; 53; 48; 65].
Proof. eexists. split; [vm_compute; reflexivity|]. split; vm_compute; reflexivity. Qed.
(** ** dnssec.rs:1072-1140 (build_rrsig_rsa_sha1).  The private key operation was computed outside; its result is verified here, with SHA-1
    and RSA computed.  (Signatures with a DigestInfo, as others make them, are rejected: C94_rfc5702_refuted.) *)
Definition t_rsa_key : dnskey := mkDnskey true false 3 RSA_SHA1
  [3; 1; 0; 1; 191; 188; 148; 99; 66; 196; 152; 11; 75; 202; 216; 85; 234; 250; 18; 113; 213; 184; 137; 16; 14; 8;
   93; 141; 219; 94; 192; 60; 212; 220; 110; 81; 236; 246; 204; 108; 165; 81; 188; 125; 140; 107; 186; 80; 201; 135;
   30; 161; 170; 150; 101; 8; 171; 74; 62; 246; 122; 227; 214; 124; 252; 80; 156; 204; 189; 185; 192; 178; 148; 15;
   133; 184; 127; 92; 74; 50; 28; 61; 254; 15; 168; 151; 221; 186; 145; 228; 245; 126; 132; 5; 136; 241; 172; 34;
   216; 226; 157; 127; 200; 28; 32; 200; 18; 17; 38; 214; 109; 2; 163; 55; 113; 224; 7; 217; 106; 47; 16; 144; 250;
   173; 59; 78; 184; 122; 57; 2; 91; 137].
Definition t_soa_set : rrset := mkRRset (fqdn_new [109; 105; 101; 107; 46; 110; 108]) SOA CIN 14400
  [DSOA (mkSoa (fqdn_new [111; 112; 101; 110; 46; 110; 108; 110; 101; 116; 108; 97; 98; 115; 46; 110; 108]) (fqdn_new [109; 105; 101; 107; 103; 46; 97; 116; 111; 111; 109; 46; 110; 101; 116]) 1293945905 14400 3600 604800 86400)].
Definition t_soa_rrsig (sig : bytes) : rrsig := mkRrsig SOA RSA_SHA1 2 14400 1296534305 1293942305 37350 (fqdn_new [109; 105; 101; 107; 46; 110; 108]) sig.
Example rrsig_rsa_sha1 : base64_public_key t_rsa_key = [65; 119; 69; 65; 65; 98; 43; 56; 108; 71; 78; 67; 120; 74; 103; 76; 83; 56; 114; 89; 86; 101; 114; 54; 69; 110;
   72; 86; 117; 73; 107; 81; 68; 103; 104; 100; 106; 100; 116; 101; 119; 68; 122; 85; 51; 71; 53; 82; 55; 80; 98; 77;
   98; 75; 86; 82; 118; 72; 50; 77; 97; 55; 112; 81; 121; 89; 99; 101; 111; 97; 113; 87; 90; 81; 105; 114; 83; 106;
   55; 50; 101; 117; 80; 87; 102; 80; 120; 81; 110; 77; 121; 57; 117; 99; 67; 121; 108; 65; 43; 70; 117; 72; 57; 99;
   83; 106; 73; 99; 80; 102; 52; 80; 113; 74; 102; 100; 117; 112; 72; 107; 57; 88; 54; 69; 66; 89; 106; 120; 114; 67;
   76; 89; 52; 112; 49; 47; 121; 66; 119; 103; 121; 66; 73; 82; 74; 116; 90; 116; 65; 113; 77; 51; 99; 101; 65; 72;
   50; 87; 111; 118; 69; 74; 68; 54; 114; 84; 116; 79; 117; 72; 111; 53; 65; 108; 117; 74] /\
  compute_key_tag t_cfg t_rsa_key = Ok 37350 /\
  rrsig_verify t_cfg t_fips (fun _ _ => inr 0%nat) (t_soa_rrsig
  [106; 186; 202; 213; 51; 5; 17; 97; 168; 120; 71; 69; 104; 177; 61; 176; 121; 153; 222; 38; 39; 124; 85; 160; 230;
   21; 41; 32; 48; 12; 20; 73; 189; 146; 245; 36; 254; 238; 38; 110; 87; 72; 116; 93; 2; 54; 95; 223; 181; 153; 164;
   252; 77; 20; 78; 114; 222; 168; 21; 51; 108; 176; 247; 5; 127; 20; 128; 80; 133; 239; 155; 231; 238; 17; 90; 166;
   19; 195; 223; 160; 246; 118; 121; 251; 142; 229; 237; 16; 73; 100; 153; 194; 252; 184; 27; 236; 187; 175; 160;
   229; 80; 151; 88; 186; 101; 187; 71; 200; 118; 197; 231; 100; 103; 128; 164; 173; 83; 240; 163; 109; 108; 242;
   101; 127; 134; 65; 193; 104]) t_rsa_key t_soa_set = Ok true.
Proof. split; [vm_compute; reflexivity|]. split; vm_compute; reflexivity. Qed.

(** ** RFC 9460, appendix D.1 and D.2: alias form, service form, port, unassigned key, one value of each kind. *)
Example rfc9460_alias : fst (svcb_try_from t_cfg (buf_from [0; 0; 3; 102; 111; 111; 7; 101; 120; 97; 109; 112; 108; 101; 3; 99; 111; 109; 0])) = Ok (mkSvcb 0 (fqdn_new [102; 111; 111; 46; 101; 120; 97; 109; 112; 108; 101; 46; 99; 111; 109]) []) /\ svcb_to_bytes t_cfg (mkSvcb 0 (fqdn_new [102; 111; 111; 46; 101; 120; 97; 109; 112; 108; 101; 46; 99; 111; 109]) []) = Ok [0; 0; 3; 102; 111; 111; 7; 101; 120; 97; 109; 112; 108; 101; 3; 99; 111; 109; 0].
Proof. split; vm_compute; reflexivity. Qed.
Example rfc9460_root : fst (svcb_try_from t_cfg (buf_from [0; 1; 0])) = Ok (mkSvcb 1 (fqdn_new []) []) /\ svcb_to_bytes t_cfg (mkSvcb 1 (fqdn_new []) []) = Ok [0; 1; 0].
Proof. split; vm_compute; reflexivity. Qed.
Example rfc9460_port : fst (svcb_try_from t_cfg (buf_from [0; 16; 3; 102; 111; 111; 7; 101; 120; 97; 109; 112; 108; 101; 3; 99; 111; 109; 0; 0; 3; 0; 2; 0; 53])) = Ok (mkSvcb 16 (fqdn_new [102; 111; 111; 46; 101; 120; 97; 109; 112; 108; 101; 46; 99; 111; 109]) [PPort 53]) /\ svcb_to_bytes t_cfg (mkSvcb 16 (fqdn_new [102; 111; 111; 46; 101; 120; 97; 109; 112; 108; 101; 46; 99; 111; 109]) [PPort 53]) = Ok [0; 16; 3; 102; 111; 111; 7; 101; 120; 97; 109; 112; 108; 101; 3; 99; 111; 109; 0; 0; 3; 0; 2; 0; 53].
Proof. split; vm_compute; reflexivity. Qed.
(** Keys between 7 and 65279 are not read. *)
Example rfc9460_generic : fst (svcb_try_from t_cfg (buf_from [0; 1; 3; 102; 111; 111; 7; 101; 120; 97; 109; 112; 108; 101; 3; 99; 111; 109; 0; 2; 155; 0; 5; 104; 101; 108; 108; 111])) = Err (InvalidSvcbParam 667).
Proof. vm_compute. reflexivity. Qed.
(** Two addresses in one hint: the second is taken for another parameter (C65). *)
Example rfc9460_ipv6 : is_ok (fst (svcb_try_from t_cfg (buf_from [0; 1; 3; 102; 111; 111; 7; 101; 120; 97; 109; 112; 108; 101; 3; 99; 111; 109; 0; 0; 6; 0; 32; 32; 1; 13; 184; 0; 0; 0; 0; 0; 0; 0; 0; 0; 0; 0; 1; 32; 1; 13; 184; 0; 0; 0; 0; 0; 0; 0; 0; 0; 83; 0; 1]))) = false.
Proof. vm_compute. reflexivity. Qed.
Example rfc9460_mandatory : fst (svcb_try_from t_cfg (buf_from [0; 16; 3; 102; 111; 111; 7; 101; 120; 97; 109; 112; 108; 101; 3; 111; 114; 103; 0; 0; 0; 0; 4; 0; 1; 0; 4; 0; 1; 0; 9; 2; 104; 50; 5; 104; 51; 45; 49; 57; 0; 4; 0; 4; 192; 0; 2; 1])) = Ok (mkSvcb 16 (fqdn_new [102; 111; 111; 46; 101; 120; 97; 109; 112; 108; 101; 46; 111; 114; 103]) [PMandatory [KAlpn; KIpV4Hint]; PAlpn [[104; 50]; [104; 51; 45; 49; 57]]; PIpV4Hint 3221225985]) /\ svcb_to_bytes t_cfg (mkSvcb 16 (fqdn_new [102; 111; 111; 46; 101; 120; 97; 109; 112; 108; 101; 46; 111; 114; 103]) [PMandatory [KAlpn; KIpV4Hint]; PAlpn [[104; 50]; [104; 51; 45; 49; 57]]; PIpV4Hint 3221225985]) = Ok [0; 16; 3; 102; 111; 111; 7; 101; 120; 97; 109; 112; 108; 101; 3; 111; 114; 103; 0; 0; 0; 0; 4; 0; 1; 0; 4; 0; 1; 0; 9; 2; 104; 50; 5; 104; 51; 45; 49; 57; 0; 4; 0; 4; 192; 0; 2; 1].
Proof. split; vm_compute; reflexivity. Qed.

(** ** RFC 4034, 4.3: the example has the unassigned type 1234 and is not read (C65); without it, it is. *)
Example rfc4034_nsec : fst (nsec_try_from t_cfg (buf_from [4; 104; 111; 115; 116; 7; 101; 120; 97; 109; 112; 108; 101; 3; 99; 111; 109; 0; 0; 6; 64; 1; 0; 0; 0; 3; 4; 27; 0; 0; 0; 0; 0; 0; 0; 0; 0; 0; 0; 0; 0; 0; 0; 0; 0; 0; 0; 0; 0; 0; 0; 0; 0; 0; 32])) = Err (InvalidType 1234) /\
  fst (nsec_try_from t_cfg (buf_from [4; 104; 111; 115; 116; 7; 101; 120; 97; 109; 112; 108; 101; 3; 99; 111; 109; 0; 0; 6; 64; 1; 0; 0; 0; 3])) = Ok (mkNsec (fqdn_new [104; 111; 115; 116; 46; 101; 120; 97; 109; 112; 108; 101; 46; 99; 111; 109]) [A; MX; RRSIG; NSEC]) /\
  nsec_to_bytes t_cfg (mkNsec (fqdn_new [104; 111; 115; 116; 46; 101; 120; 97; 109; 112; 108; 101; 46; 99; 111; 109]) [A; MX; RRSIG; NSEC]) = Ok [4; 104; 111; 115; 116; 7; 101; 120; 97; 109; 112; 108; 101; 3; 99; 111; 109; 0; 0; 6; 64; 1; 0; 0; 0; 3].
Proof. split; [vm_compute; reflexivity|]. split; vm_compute; reflexivity. Qed.
