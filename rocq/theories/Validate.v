(** Sanity checks of the model against facts stated in /repo's own tests. Nothing depends on this
    file. *)
From Verif Require Import Base Common Lzw Encoder Stream Converter Reader LzwRef.

(** tests/samples/sample_1.gif and tests/samples/2x2.gif. *)
Definition sample_1 : list N := [71; 73; 70; 56; 57; 97; 10; 0; 10; 0; 145; 0; 0; 255; 255; 255; 255; 0; 0; 0; 0; 255; 0; 0; 0; 33; 249; 4; 0; 0; 0; 0; 0; 44; 0; 0; 0; 0; 10; 0; 10; 0; 0; 2; 22; 140; 45; 153; 135; 42; 28; 220; 51; 160; 2; 117; 236; 149; 250; 168; 222; 96; 140; 4; 145; 76; 1; 0; 59]%N.
Definition sample_2x2 : list N := [71; 73; 70; 56; 57; 97; 2; 0; 2; 0; 128; 0; 0; 255; 255; 255; 0; 0; 0; 33; 249; 4; 4; 0; 0; 0; 0; 44; 0; 0; 0; 0; 2; 0; 2; 0; 0; 2; 3; 12; 16; 5; 0; 59]%N.

Definition umax64 : N := (2 ^ 64 - 1)%N.
Definition bytewise (l : list N) : list revent := map (fun b => RChunk [b]) l.

(** The first frame's buffer of a file, read through [read_info] and [read_next_frame]. *)
Definition first_buffer (src : list revent) (o : options) : option (list N) :=
  match read_info lzw_ref src o with
  | Ok d =>
    let '(d1, x) := read_next_frame lzw_ref umax64 d in
    match x with Ok true => Some (f_buffer (dc_cur lzw_ref d1)) | _ => None end
  | _ => None
  end.

(** tests/decode.rs 7-22 [test_simple_indexed]. *)
Definition sample_1_pixels : list N :=
  [1; 1; 1; 1; 1; 2; 2; 2; 2; 2;
   1; 1; 1; 1; 1; 2; 2; 2; 2; 2;
   1; 1; 1; 1; 1; 2; 2; 2; 2; 2;
   1; 1; 1; 0; 0; 0; 0; 2; 2; 2;
   1; 1; 1; 0; 0; 0; 0; 2; 2; 2;
   2; 2; 2; 0; 0; 0; 0; 1; 1; 1;
   2; 2; 2; 0; 0; 0; 0; 1; 1; 1;
   2; 2; 2; 2; 2; 1; 1; 1; 1; 1;
   2; 2; 2; 2; 2; 1; 1; 1; 1; 1;
   2; 2; 2; 2; 2; 1; 1; 1; 1; 1]%N.
Example test_simple_indexed : first_buffer [RChunk sample_1] options_new = Some sample_1_pixels.
Proof. vm_compute. reflexivity. Qed.
Example test_simple_indexed_bytewise :
  first_buffer (bytewise sample_1) options_new = Some sample_1_pixels.
Proof. vm_compute. reflexivity. Qed.

(** Everything a decoder reports: screen size, loop count, global palette and all frames. *)
Fixpoint all_frames (fuel : nat) (d : dcd lzw_ref) : list frame * dres unit :=
  match fuel with
  | O => ([], Hang)
  | S fuel' =>
    let '(d1, x) := read_next_frame lzw_ref umax64 d in
    match x with
    | Ok true => let '(fs, r) := all_frames fuel' d1 in (dc_cur lzw_ref d1 :: fs, r)
    | Ok false => ([], Ok tt)
    | Err e => ([], Err e)
    | Panic => ([], Panic)
    | Hang => ([], Hang)
    end
  end.
Definition frames_of (src : list revent) (o : options) : list frame * dres unit :=
  match read_info lzw_ref src o with
  | Ok d => all_frames 100 d
  | Err e => ([], Err e)
  | Panic => ([], Panic)
  | Hang => ([], Hang)
  end.

(** tests/roundtrip.rs 6-20 [round_trip]: decoding sample_1.gif and encoding the frame again gives
    the identical file. *)
Definition reencode (src : list N) : option (list N) :=
  match read_info lzw_ref [RChunk src] options_new with
  | Ok d =>
    match dec_palette lzw_ref d, read_next_frame lzw_ref umax64 d with
    | Ok pal, (d1, Ok true) =>
      let f := dc_cur lzw_ref d1 in
      let '(e, _) := encoder_new (mk_writer [] []) (f_width f) (f_height f) pal in
      let '(e1, r) := write_frame lzw_ref true e f in
      match r, e_w (encoder_drop e1) with
      | Ok _, Some w => Some (w_out w)
      | _, _ => None
      end
    | _, _ => None
    end
  | _ => None
  end.
Example round_trip : reencode sample_1 = Some sample_1.
Proof. vm_compute. reflexivity. Qed.

(** tests/stall/issue-101-infinite-empty-loop.gif, tests/crashtest/issue-96-*.gif: decoding ends
    with an ordinary result. *)
Definition rgba_opts : options := mk_opts (Some 50000000%N) CRgba false false false false.
Definition issue_101 : list N := [71; 73; 70; 56; 57; 97; 71; 26; 71; 255; 0; 0; 0; 44; 1; 0; 0; 0; 0; 0; 0; 39; 248; 70; 56; 0; 0; 1; 0; 0; 255; 185; 56; 255; 255; 70; 73; 4; 0; 56]%N.
Definition issue_96 : list N := [71; 73; 70; 56; 55; 97; 185; 0; 0; 0; 127; 190; 201; 44; 49; 48; 0; 0; 0; 0; 0; 0; 0; 0; 0; 0; 0; 0; 0; 0; 0; 0; 0; 0]%N.
Definition issue_96_2 : list N := [71; 73; 70; 56; 57; 97; 126; 44; 51; 49; 57; 97; 126; 44; 51; 49; 56; 53; 55; 251; 56; 0; 0; 0; 251; 56]%N.
Example stall_101 : returns (snd (frames_of [RChunk issue_101] rgba_opts)).
Proof. vm_compute. exact I. Qed.
Example crash_96 : returns (snd (frames_of [RChunk issue_96] options_new)).
Proof. vm_compute. exact I. Qed.
Example crash_96_2 : returns (snd (frames_of [RChunk issue_96_2] options_new)).
Proof. vm_compute. exact I. Qed.

(** tests/samples/anim-gr.gif, beacon.gif, 2x2.gif decode without error, in one piece and one byte
    at a time alike. *)
Definition anim_gr : list N := [71; 73; 70; 56; 57; 97; 100; 0; 50; 0; 240; 0; 0; 0; 255; 0; 0; 0; 0; 33; 249; 4; 0; 1; 0; 0; 0; 33; 255; 11; 78; 69; 84; 83; 67; 65; 80; 69; 50; 46; 48; 3; 1; 0; 0; 0; 44; 0; 0; 0; 0; 100; 0; 50; 0; 0; 2; 77; 132; 143; 169; 203; 237; 15; 163; 156; 180; 218; 139; 179; 222; 188; 251; 15; 134; 226; 72; 150; 230; 137; 166; 234; 202; 182; 238; 11; 199; 242; 76; 215; 246; 141; 231; 250; 206; 247; 254; 15; 12; 10; 135; 196; 162; 241; 136; 76; 42; 151; 204; 166; 243; 9; 141; 74; 167; 212; 170; 245; 138; 205; 106; 183; 220; 174; 247; 11; 14; 139; 199; 228; 178; 249; 108; 43; 0; 0; 33; 249; 4; 0; 16; 39; 0; 0; 44; 0; 0; 0; 0; 100; 0; 50; 0; 128; 255; 0; 0; 0; 0; 0; 2; 77; 132; 143; 169; 203; 237; 15; 163; 156; 180; 218; 139; 179; 222; 188; 251; 15; 134; 226; 72; 150; 230; 137; 166; 234; 202; 182; 238; 11; 199; 242; 76; 215; 246; 141; 231; 250; 206; 247; 254; 15; 12; 10; 135; 196; 162; 241; 136; 76; 42; 151; 204; 166; 243; 9; 141; 74; 167; 212; 170; 245; 138; 205; 106; 183; 220; 174; 247; 11; 14; 139; 199; 228; 178; 249; 108; 43; 0; 0; 59]%N.
Definition beacon : list N := [71; 73; 70; 56; 57; 97; 6; 0; 6; 0; 128; 0; 0; 255; 255; 255; 0; 0; 0; 33; 255; 11; 78; 69; 84; 83; 67; 65; 80; 69; 50; 46; 48; 3; 1; 0; 0; 0; 33; 249; 4; 4; 0; 0; 0; 0; 44; 0; 0; 0; 0; 6; 0; 6; 0; 0; 2; 8; 132; 15; 17; 168; 104; 125; 160; 43; 0; 33; 249; 4; 4; 0; 0; 0; 0; 44; 0; 0; 0; 0; 6; 0; 6; 0; 0; 2; 9; 132; 15; 17; 184; 120; 109; 148; 51; 5; 0; 59]%N.
Definition summary (x : list frame * dres unit) : nat * dres unit := (length (fst x), snd x).
Example anim_gr_same :
  frames_of [RChunk anim_gr] options_new = frames_of (bytewise anim_gr) options_new.
Proof. vm_compute. reflexivity. Qed.
Example beacon_ok : snd (frames_of [RChunk beacon] options_new) = Ok tt.
Proof. vm_compute. reflexivity. Qed.
Example x2_ok : snd (frames_of [RChunk sample_2x2] options_new) = Ok tt.
Proof. vm_compute. reflexivity. Qed.

(** CRC-32 (reflected polynomial 0xEDB88320), as in tests/check_testimages.rs. *)
Fixpoint crc_bits (n : nat) (c : N) : N :=
  match n with
  | O => c
  | S n' => crc_bits n' (if N.odd c then N.lxor (N.div2 c) 0xEDB88320 else N.div2 c)%N
  end.
Definition crc_byte (c b : N) : N :=
  let x := N.lxor c b in
  N.lxor (crc_bits 8 (N.land x 255)) (N.shiftr x 8).
Definition crc32 (l : list N) : N := N.lxor (fold_left crc_byte l 0xFFFFFFFF%N) 0xFFFFFFFF.
Definition file_crc (l : list N) : N * dres unit :=
  let '(fs, r) := frames_of [RChunk l] rgba_opts in (crc32 (concat (map f_buffer fs)), r).

(** tests/check_testimages.rs 61-79 [render_images] with tests/results.txt: the RGBA rendering of
    the small sample files has the recorded checksum. *)
Definition alpha_gif_a : list N := [71; 73; 70; 56; 57; 97; 0; 1; 0; 1; 240; 0; 0; 0; 0; 255; 0; 0; 0; 33; 249; 4; 1; 0; 0; 1; 0; 44; 0; 0; 0; 0; 0; 1; 0; 1; 0; 2; 254; 132; 143; 169; 203; 237; 15; 163; 156; 180; 218; 139; 179; 222; 188; 251; 15; 134; 226; 72; 150; 230; 137; 166; 234; 202; 182; 238; 11; 199; 242; 76; 215; 246; 141; 231; 250; 206; 247; 254; 15; 12; 10; 135; 196; 162; 241; 136; 76; 42; 151; 204; 166; 243; 9; 141; 74; 167; 212; 170; 245; 138; 205; 106; 183; 220; 174; 247; 11; 14; 139; 199; 228; 178; 249; 140; 78; 171; 215; 236; 182; 251; 13; 143; 203; 231; 244; 186; 253; 142; 207; 235; 247; 252; 190; 255; 15; 24; 40; 56; 72; 88; 104; 120; 136; 152; 168; 184; 200; 216; 232; 248; 8; 25; 41; 57; 73; 89; 105; 121; 137; 153; 169; 185; 201; 217; 233; 249; 9; 26; 42; 58; 74; 90; 106; 122; 138; 154; 170; 186; 202; 218; 234; 250; 10; 27; 43; 59; 75; 91; 107; 123; 139; 155; 171; 187; 203; 219; 235; 251; 11; 28; 44; 60; 76; 92; 108; 124; 140; 156; 172; 188; 204; 220; 236; 252; 12; 29; 45; 61; 77; 93; 109; 125; 141; 157; 173; 189; 205; 221; 237; 253; 13; 30; 46; 62; 78; 94; 110; 126; 142; 158; 174; 190; 206; 222; 238; 254; 14; 31; 47; 63; 79; 95; 111; 127; 143; 159; 175; 191; 207; 223; 239; 255; 15; 48; 160; 192; 129; 132; 2; 24; 60; 136; 48; 161; 194; 133; 12; 27; 58; 124; 8; 49; 162; 196; 137; 20; 43; 90; 188; 136; 49; 163; 198; 254; 141; 28; 59; 122; 252; 8; 50; 164; 200; 145; 36; 75; 154; 60; 137; 50; 165; 202; 149; 44; 91; 186; 124; 9; 51; 166; 204; 153; 52; 107; 218; 188; 137; 51; 167; 206; 157; 60; 123; 250; 252; 9; 52; 168; 208; 161; 68; 139; 26; 61; 138; 52; 169; 210; 165; 76; 155; 58; 125; 10; 53; 170; 212; 169; 84; 171; 90; 189; 138; 53; 171; 214; 173; 92; 187; 122; 253; 10; 54; 172; 216; 177; 100; 203; 154; 61; 139; 54; 173; 218; 181; 108; 219; 186; 125; 11; 55; 174; 220; 185; 116; 235; 218; 189; 139; 55; 175; 222; 189; 124; 251; 250; 253; 11; 56; 176; 224; 193; 132; 11; 27; 62; 140; 56; 177; 226; 197; 140; 27; 59; 126; 12; 57; 178; 228; 201; 148; 43; 91; 190; 140; 57; 179; 230; 205; 156; 59; 123; 254; 12; 58; 180; 232; 209; 164; 75; 155; 62; 141; 58; 181; 234; 213; 172; 91; 187; 126; 13; 59; 182; 236; 217; 180; 107; 219; 190; 141; 59; 183; 238; 221; 188; 123; 251; 254; 13; 60; 184; 240; 225; 196; 139; 27; 63; 142; 60; 185; 242; 229; 204; 155; 59; 127; 14; 61; 186; 244; 233; 212; 171; 91; 191; 142; 61; 187; 246; 237; 220; 187; 123; 255; 14; 62; 188; 248; 241; 228; 203; 155; 63; 143; 62; 189; 250; 245; 236; 219; 187; 127; 15; 63; 190; 252; 249; 244; 235; 219; 191; 143; 63; 191; 254; 253; 252; 11; 251; 251; 255; 15; 96; 128; 2; 14; 72; 88; 1; 0; 59]%N.
Definition set_hsts : list N := [71; 73; 70; 56; 57; 97; 1; 0; 1; 0; 128; 255; 0; 192; 192; 192; 0; 0; 0; 33; 249; 4; 1; 0; 0; 0; 0; 44; 0; 0; 0; 0; 1; 0; 1; 0; 0; 1; 1; 50; 0; 59]%N.
Example crc_sample_1 : file_crc sample_1 = (3275424619%N, Ok tt).
Proof. vm_compute. reflexivity. Qed.
Example crc_2x2 : file_crc sample_2x2 = (3802149240%N, Ok tt).
Proof. vm_compute. reflexivity. Qed.
Example crc_anim_gr : file_crc anim_gr = (291646878%N, Ok tt).
Proof. vm_compute. reflexivity. Qed.
Example crc_beacon : file_crc beacon = (2462153529%N, Ok tt).
Proof. vm_compute. reflexivity. Qed.
Example crc_alpha : file_crc alpha_gif_a = (3871893825%N, Ok tt).
Proof. vm_compute. reflexivity. Qed.
Example crc_set_hsts : file_crc set_hsts = (224161812%N, Ok tt).
Proof. vm_compute. reflexivity. Qed.
