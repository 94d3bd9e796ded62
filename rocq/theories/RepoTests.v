(** More of the repository's own tests, run on the model. Nothing depends on this file. *)
From Verif Require Import Base Common Lzw Encoder Stream Converter Reader LzwRef Validate.
Open Scope N_scope.

(** src/encoder.rs 443-470 [test_flag_size]. *)
Definition expected_flag (size : N) : N :=
  if size <=? 2 then 0 else if size <=? 4 then 1 else if size <=? 8 then 2 else if size <=? 16 then 3
  else if size <=? 32 then 4 else if size <=? 64 then 5 else if size <=? 128 then 6 else 7.
Definition upto (n : nat) : list N := map N.of_nat (seq 0 n).
Example test_flag_size :
  forallb (fun i => flag_size i =? expected_flag i) (upto 300) = true /\
  forallb (fun i => trailing_zeros (next_power_of_two (N.max (i + 1) 4)) =? N.max 2 (flag_size (1 + i) + 1)) (skipn 4 (upto 256)) = true.
Proof. split; vm_compute; reflexivity. Qed.

(** src/reader/converter.rs 219-245 [test_interlace_iterator]. *)
Example test_interlace_iterator : map interlace_rows (upto 18) =
  [[]; [0]; [0; 1]; [0; 2; 1]; [0; 2; 1; 3]; [0; 4; 2; 1; 3]; [0; 4; 2; 1; 3; 5]; [0; 4; 2; 6; 1; 3; 5]; [0; 4; 2; 6; 1; 3; 5; 7];
   [0; 8; 4; 2; 6; 1; 3; 5; 7]; [0; 8; 4; 2; 6; 1; 3; 5; 7; 9]; [0; 8; 4; 2; 6; 10; 1; 3; 5; 7; 9];
   [0; 8; 4; 2; 6; 10; 1; 3; 5; 7; 9; 11]; [0; 8; 4; 12; 2; 6; 10; 1; 3; 5; 7; 9; 11];
   [0; 8; 4; 12; 2; 6; 10; 1; 3; 5; 7; 9; 11; 13]; [0; 8; 4; 12; 2; 6; 10; 14; 1; 3; 5; 7; 9; 11; 13];
   [0; 8; 4; 12; 2; 6; 10; 14; 1; 3; 5; 7; 9; 11; 13; 15]; [0; 8; 16; 4; 12; 2; 6; 10; 14; 1; 3; 5; 7; 9; 11; 13; 15]]%nat.
Proof. vm_compute. reflexivity. Qed.

(** A session without writer faults; [None] if a call fails. *)
Definition session (w h : N) (pal : list N) (ops : list enc_op) : option (list N) :=
  match encoder_new (mk_writer [] []) w h pal with
  | (e, Ok _) =>
    match run_ops lzw_ref true e ops with
    | (e1, Ok _) => match into_inner e1 with (_, Ok w') => Some (w_out w') | _ => None end
    | _ => None
    end
  | _ => None
  end.
Definition plain (w h : N) (pal : option (list N)) (buf : list N) : frame := mk_frame 0 DKeep None false 0 0 w h false pal buf.

(** tests/roundtrip.rs [palette_sizes], for every size from 1 to 256. *)
Definition global_pal : list N := flat_map (fun i => [i; i / 2; (i + 13) mod 256]) (upto 256).
Definition local_pal : list N := flat_map (fun i => [N.lxor i 0x55; i; (i + 7) mod 256]) (upto 256).
Definition padded (pal got : list N) (size : nat) : bool :=
  list_eqb got (pal ++ repeat 0 (3 * (N.to_nat (next_power_of_two (N.max (N.of_nat size) 2)) - size))).
Definition palette_size_ok (size : nat) : bool :=
  let g := firstn (size * 3) global_pal in
  let l := firstn (size * 3) local_pal in
  match session 1 1 g [OWriteFrame (plain 1 1 None [1]); OWriteFrame (plain 1 1 (Some l) [1])] with
  | Some gif =>
    match read_info lzw_ref [RChunk gif] options_new with
    | Ok d =>
      match dec_global_palette lzw_ref d, all_frames 3 d with
      | Some g', ([f1; f2], Ok _) =>
        padded g g' size && match f_palette f1, f_palette f2 with None, Some l' => padded l l' size | _, _ => false end
      | _, _ => false
      end
    | _ => false
    end
  | None => false
  end.
Example palette_sizes : forallb palette_size_ok (seq 1 256) = true.
Proof. vm_compute. reflexivity. Qed.

(** tests/roundtrip.rs [palette_fail]. *)
Example palette_fail :
  let '(e, r) := encoder_new (mk_writer [] []) 0xFFFF 0xFFFF [] in
  r = Ok tt /\ snd (write_frame lzw_ref true e (plain 1 1 None [1])) = Err (EFormat MissingColorPalette).
Proof. vm_compute. split; reflexivity. Qed.

(** tests/roundtrip.rs [max_frame_size]. *)
Example max_frame_size :
  match session 0xFFFF 0xFFFF [1; 2; 3] [OWritePre (plain 0xFFFF 0xFFFF None [5])] with
  | Some gif =>
    match read_info lzw_ref [RChunk gif] options_new with
    | Ok d => let '(d1, x) := next_frame_info lzw_ref d in
              (x, f_width (dc_cur lzw_ref d1), f_height (dc_cur lzw_ref d1), dec_line_length lzw_ref d1, dec_buffer_size lzw_ref umax64 d1)
              = (Ok true, 0xFFFF, 0xFFFF, 0xFFFF, Some (0xFFFF * 0xFFFF))
    | _ => False
    end
  | None => False
  end.
Proof. vm_compute. reflexivity. Qed.

(** tests/roundtrip.rs [encode_roundtrip] ([round_trip_from_image] on 2x2.gif); here with more small samples. *)
Definition screen (d : dcd lzw_ref) : N * N := (sd_width lzw_ref (rd_dec lzw_ref (dc_rd lzw_ref d)), sd_height lzw_ref (rd_dec lzw_ref (dc_rd lzw_ref d))).
Definition or_none (p : option (list N)) : list N := match p with Some p => p | None => [] end.
Definition again (src : list N) : option (list N) :=
  match read_info lzw_ref [RChunk src] options_new with
  | Ok d =>
    match all_frames 100 d with
    | (fs, Ok _) =>
      session (fst (screen d)) (snd (screen d)) (or_none (dec_global_palette lzw_ref d))
        (OSetRepeat (dc_repeat lzw_ref d) :: ORawExt 0xFE [[104; 101; 108; 108; 111]] :: map OWriteFrame fs)
    | _ => None
    end
  | _ => None
  end.
Definition report (src : list N) :=
  match read_info lzw_ref [RChunk src] options_new with
  | Ok d => Some (screen d, dc_repeat lzw_ref d, dec_global_palette lzw_ref d, all_frames 100 d)
  | _ => None
  end.
Example encode_roundtrip : Forall (fun src => match again src with Some gif => report gif = report src | None => False end)
  [sample_2x2; sample_1; beacon; set_hsts].
Proof. do 4 (apply Forall_cons; [vm_compute; reflexivity|]). apply Forall_nil. Qed.

(** tests/decode.rs [frame_consistency_is_configurable]. *)
Definition oob_image : option (list N) :=
  let f t l := mk_frame 1 DAny None false t l 2 2 false None [0; 0; 0; 0] in
  session 2 2 [0; 0; 0] [OWriteFrame (f 0 0); OWriteFrame (f 1 1)].
Definition two_frames (src : list N) (o : options) : option (dres bool * dres bool) :=
  match read_info lzw_ref [RChunk src] o with
  | Ok d => let '(d1, x) := read_next_frame lzw_ref umax64 d in Some (x, snd (read_next_frame lzw_ref umax64 d1))
  | _ => None
  end.
Definition consistency (b : bool) : options := mk_opts (Some 50000000) CIndexed b false false false.
Example frame_consistency_is_configurable :
  match oob_image with
  | Some gif =>
    two_frames gif options_new = Some (Ok true, Ok true) /\
    (exists e, two_frames gif (consistency true) = Some (Ok true, Err e)) /\
    two_frames gif (consistency false) = Some (Ok true, Ok true)
  | None => False
  end.
Proof. vm_compute. split; [reflexivity|]. split; [eexists; reflexivity|reflexivity]. Qed.

(** tests/stall.rs [test_truncated_file]: every truncation of anim-gr.gif is decoded or refused. *)
Definition comes_back (x : dres unit) : bool := match x with Ok _ | Err _ => true | _ => false end.
Example test_truncated_file :
  forallb (fun n => comes_back (snd (frames_of [RChunk (firstn n anim_gr)] options_new))) (seq 0 240) = true.
Proof. vm_compute. reflexivity. Qed.

(** tests/crashtest/issue-117-out-of-range.gif. *)
Definition issue_117 : list N :=
  [71; 73; 70; 56; 57; 97; 3; 0; 42; 93; 232; 102; 97; 114; 98; 102; 69; 108; 100; 44; 0; 0; 0; 0; 0; 1; 1; 2; 0; 0; 214; 74; 96; 207; 103; 15; 199; 111; 107; 244;
   25; 247; 191; 189; 226; 225; 191; 245; 8; 8; 8; 8; 8; 8; 8; 8; 8; 8; 8; 8; 8; 8; 8; 8; 8; 8; 8; 8; 8; 8; 8; 8; 8; 8; 8; 8; 8; 8; 26; 254;
   25; 157; 162; 126; 184; 209; 74; 84; 168; 86; 59; 109; 12; 102; 189; 137; 246; 207; 187; 255; 68; 136; 174; 100; 106; 127; 10; 70; 69; 239; 203; 21; 200; 222; 117; 206; 103; 101; 102; 244;
   226; 101; 23; 85; 247; 58; 91; 101; 253; 239; 185; 116; 47; 126; 170; 199; 76; 146; 145; 219; 249; 77; 145; 130; 9; 149; 50; 99; 178; 58; 224; 215; 74; 122; 71; 189; 133; 180; 65; 157;
   120; 18; 81; 249; 87; 219; 220; 62; 146; 96; 12; 102; 239; 36; 245; 190; 8; 8; 8; 8; 8; 8; 8; 8; 8; 8; 8; 8; 8; 8; 8; 8; 8; 8; 8; 8; 8; 8; 8; 8;
   8; 8; 8; 8; 8; 8; 8; 8; 8; 8; 8; 8; 8; 8; 8; 8; 8; 8; 8; 8; 8; 8; 8; 8; 8; 8; 8; 8; 8; 8; 8; 8; 8; 8; 8; 8; 8; 8; 8; 8;
   8; 8; 8; 8; 8; 8; 8; 8; 8; 8; 8; 8; 8; 8; 8; 8; 8; 8; 8; 8; 8; 8; 8; 8; 8; 8; 8; 8; 8; 8; 8; 8; 8; 8; 8; 8; 8; 8; 8; 8;
   8; 8; 8; 8; 8; 8; 8; 8; 8; 8; 8; 8; 8; 8; 8; 8; 8; 8; 8; 8; 8; 8; 8; 8; 8; 8; 8; 8; 8; 8; 8; 8; 8; 8; 8; 71; 211; 94; 3; 217;
   166; 120; 178; 15; 193; 195; 156; 218; 58; 52; 66; 62; 82; 224; 173; 145; 80; 54; 55; 48; 173; 145; 65; 100; 111; 98; 101; 0; 18; 20; 55; 48; 56; 55; 0; 0; 0; 0; 0; 0;
   0; 0; 0; 0; 0; 0; 0; 0; 0; 0; 0; 0; 0; 0; 0; 0; 0; 0; 0; 0; 0; 0; 0; 0; 0; 0; 0; 0; 0; 0; 0; 0; 0; 0; 0; 0; 0; 0; 0; 0;
   0; 0; 0; 0; 0; 0; 0; 0; 44; 161; 164; 214; 74; 96; 207; 103; 15; 199; 111; 107; 244; 25; 247; 191; 189; 226; 225; 191; 245; 71; 211; 94; 3; 217; 166; 120; 178; 15; 193; 195;
   156; 218; 58; 52; 52; 52; 52; 52; 52; 52; 52; 52; 52; 52; 52; 52; 52; 52; 52; 52; 52; 52; 52; 52; 52; 52; 52; 52; 52; 52; 52; 52; 52; 52; 52; 52; 52; 52; 52; 52;
   52; 52; 52; 52; 52; 52; 52; 52; 66; 62; 82; 224; 173; 145; 18; 20; 88; 28; 89; 0; 0; 0; 0; 0; 0; 0; 6; 0; 7; 0; 0; 0; 0; 0; 0; 0; 0; 0; 0; 0;
   0; 0; 0; 0; 0; 0; 0; 0; 1; 1; 0; 0; 0; 0; 44; 161; 164; 214; 74; 0; 0; 0; 0; 0; 0; 0; 0; 0; 0; 0; 0; 0; 0; 0; 0; 0; 0; 0; 0; 0;
   0; 0; 0; 0; 0; 0; 0; 0; 0; 0; 255; 0; 0; 0; 0; 0; 0; 0; 0; 0; 0; 0; 0; 0; 0; 0; 0; 0; 0; 0; 0; 0; 0; 0; 0; 80; 136; 128; 0; 0;
   0; 219; 194; 173; 18; 215; 10; 86; 104; 17; 219; 95; 93; 71; 246; 144; 46; 23; 89; 6; 93; 1; 108; 0; 158; 42; 150; 127; 235; 251; 151; 130; 122; 164; 10; 202; 224; 211; 70; 162;
   169; 35; 145; 203; 114; 78; 188; 183; 15; 68; 115; 70].
Example crash_117 : comes_back (snd (frames_of [RChunk issue_117] options_new)) = true.
Proof. vm_compute. reflexivity. Qed.

(** (tests/samples/interlaced.gif was evaluated in the same way as the samples in Validate.v; the checksum is the one recorded
    in tests/results.txt. It takes two minutes and is not repeated here.) *)
