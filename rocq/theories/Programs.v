(** The example programs of /repo, examples/explode.rs, examples/parallel.rs and examples/check.rs, and the fuzz target.
    Arguments, file names, messages to the terminal and timing are left out. *)
From Verif Require Import Base Common Lzw Encoder Stream Converter Reader.

(** How a program ends: [Box<dyn Error>] of [main] holds one of these. *)
Inductive prog_err := PDecode (e : derr) | PEncode (e : eerr) | PCreate.
Notation pres := (res prog_err).
(** [?] on a result that is not [Ok]: the error is boxed; a panic goes on. *)
Definition boxed {E A B} (box : E -> prog_err) (r : res E A) (ok : A -> pres B) : pres B :=
  match r with Ok a => ok a | Err e => Err (box e) | Panic => Panic | Hang => Hang end.

(** What is in the file behind an encoder, [w] being what was there before (only for an encoder without writer). *)
Definition file_of (w : writer) (e : encoder) : writer := match e_w e with Some w' => w' | None => w end.

(** ** examples/explode.rs *)
(** Lines 25-28 and the end of the loop body, where [encoder] is dropped: one frame into the file [w]. A failed
    [Encoder::new] has dropped the encoder already; a failed [write_frame] drops it on the way out. *)
Definition explode_file (L : lzw_codec) (dbg : bool) (w : writer) (sw sh : N) (pal : list N) (f : frame) : writer * eres unit :=
  let '(e1, r1) := encoder_new w sw sh pal in
  match r1 with
  | Ok _ => let '(e2, r2) := write_frame L dbg e1 f in (file_of w (encoder_drop e2), r2)
  | _ => (file_of w e1, r1)
  end.

(** Lines 22-42, the loop. [create k] is the file number [k], or none if it cannot be created; [n] bounds the number of
    turns ([Hang] if it was too small). Returns the files in order. *)
Fixpoint explode_loop (L : lzw_codec) (umax : N) (dbg : bool) (create : nat -> option writer) (n : nat) (sw sh : N) (pal : list N)
    (k : nat) (d : dcd L) : list writer * pres unit :=
  match n with
  | O => ([], Hang)
  | S n' =>
    let '(d1, x) := read_next_frame L umax d in
    match x with
    | Ok true =>
      match create k with
      | None => ([], Err PCreate)
      | Some w =>
        let '(w1, r) := explode_file L dbg w sw sh pal (dc_cur L d1) in
        match r with
        | Ok _ => let '(ws, y) := explode_loop L umax dbg create n' sw sh pal (S k) d1 in (w1 :: ws, y)
        | _ => ([w1], boxed PEncode r (fun _ => Ok tt))
        end
      end
    | _ => ([], boxed PDecode x (fun _ => Ok tt))
    end
  end.

(** Lines 14-20 and the loop. [set_color_output(Indexed)] sets what [DecodeOptions::new] has already. *)
Definition explode (L : lzw_codec) (umax : N) (dbg : bool) (create : nat -> option writer) (n : nat) (src : list revent)
    : list writer * pres unit :=
  match read_info L src options_new with
  | Ok d =>
    explode_loop L umax dbg create n (dec_width L d) (dec_height L d)
      (match dec_global_palette L d with Some p => p | None => [] end) 1 d
  | x => ([], boxed PDecode x (fun _ => Ok tt))
  end.

(** ** examples/parallel.rs *)
(** Lines 24-25. *)
Definition parallel_opts : options :=
  mk_opts (o_limit options_new) (o_color options_new) (o_check_frame_consistency options_new) true
    (o_check_for_end_code options_new) (o_allow_unknown_blocks options_new).

(** Lines 44-45, the sequential part of the parallel iteration: [par_bridge] takes the frames one by one. It ends with
    the first [None] or the first error. *)
Fixpoint take_frames (L : lzw_codec) (umax : N) (n : nat) (it : iter L) : list frame * dres unit :=
  match n with
  | O => ([], Hang)
  | S n' =>
    let '(it1, x) := iter_next L umax it in
    match x with
    | INone => ([], Ok tt)
    | IFrame f => let '(fs, y) := take_frames L umax n' it1 in (f :: fs, y)
    | IErr e => ([], Err e)
    | IPanic => ([], Panic)
    | IHang => ([], Hang)
    end
  end.

(** Lines 46-50: what a thread does with one frame. [unwrap] panics on an error. *)
Definition reencode (L : lzw_codec) (umax : N) (f : frame) : dres frame :=
  let '(_, f1, x) := decode_lzw_encoded_frame L umax (fd_new L options_new) f in
  match x with Ok _ => Ok (make_lzw_pre_encoded L f1) | Hang => Hang | _ => Panic end.
Fixpoint reencode_all (L : lzw_codec) (umax : N) (fs : list frame) : dres (list frame) :=
  match fs with
  | [] => Ok []
  | f :: fs' =>
    match reencode L umax f with
    | Ok f1 => match reencode_all L umax fs' with Ok l => Ok (f1 :: l) | x => x end
    | Err e => Err e | Panic => Panic | Hang => Hang
    end
  end.

(** Lines 61-62, [position] and [remove]: the first element of the queue with this number, and the queue without it. *)
Fixpoint pick (k : nat) (q : list (nat * frame)) : option (frame * list (nat * frame)) :=
  match q with
  | [] => None
  | p :: q' =>
    if Nat.eqb (fst p) k then Some (snd p, q')
    else match pick k q' with Some (f, l) => Some (f, p :: l) | None => None end
  end.
(** Lines 61-65, the inner loop; it takes away one element per turn, the length of the queue is fuel enough. *)
Fixpoint flush_queue (fuel : nat) (q : list (nat * frame)) (next : nat) (e : encoder)
    : list (nat * frame) * nat * encoder * eres unit :=
  match pick next q with
  | None => (q, next, e, Ok tt)
  | Some (f, q') =>
    match fuel with
    | O => (q, next, e, Hang)
    | S fuel' =>
      let '(e1, r) := write_lzw_pre_encoded_frame e f in
      match r with Ok _ => flush_queue fuel' q' (S next) e1 | _ => (q', next, e1, r) end
    end
  end.
(** Lines 57-66, the outer loop over the messages in the order of their arrival. *)
Fixpoint receive (msgs q : list (nat * frame)) (next : nat) (e : encoder) : encoder * eres unit :=
  match msgs with
  | [] => (e, Ok tt)
  | m :: msgs' =>
    let q1 := q ++ [m] in
    let '(q2, next2, e1, r) := flush_queue (length q1) q1 next e in
    match r with Ok _ => receive msgs' q2 next2 e1 | _ => (e1, r) end
  end.

(** The whole program on the input [src], writing to [w]. [order] is the order in which the threads finish. The threads
    are not modelled otherwise; if the input has an error and a thread panics as well, the error is reported here.
    [BufWriter] is taken to pass everything on. *)
Definition parallel (L : lzw_codec) (umax : N) (order : list (nat * frame) -> list (nat * frame)) (n : nat)
    (src : list revent) (w : writer) : writer * pres unit :=
  match read_info L src parallel_opts with
  | Ok d =>
    let '(e1, r1) := encoder_new w (dec_width L d) (dec_height L d) (match dec_global_palette L d with Some p => p | None => [] end) in
    match r1 with
    | Ok _ =>
      let '(e2, r2) := set_repeat e1 (dec_repeat L d) in
      match r2 with
      | Ok _ =>
        let '(fs, x) := take_frames L umax n (mk_iter L d false) in
        match x with
        | Ok _ =>
          match reencode_all L umax fs with
          | Ok fs1 =>
            let '(e3, r3) := receive (order (combine (seq 0 (length fs1)) fs1)) [] 0 e2 in
            match r3 with
            | Ok _ =>
              let '(e4, r4) := into_inner e3 in
              match r4 with
              | Ok w4 => (w4, Ok tt)
              | _ => (file_of w e4, boxed PEncode r4 (fun _ => Ok tt))
              end
            | _ => (file_of w (encoder_drop e3), boxed PEncode r3 (fun _ => Ok tt))
            end
          | y => (file_of w (encoder_drop e2), boxed PDecode y (fun _ => Ok tt))
          end
        | _ => (file_of w (encoder_drop e2), boxed PDecode x (fun _ => Ok tt))
        end
      | _ => (file_of w (encoder_drop e2), boxed PEncode r2 (fun _ => Ok tt))
      end
    | _ => (file_of w e1, boxed PEncode r1 (fun _ => Ok tt))
    end
  | x => (w, boxed PDecode x (fun _ => Ok tt))
  end.

(** ** examples/check.rs *)
(** What lines 24-34 print for a frame. *)
Record report := mk_report {
  r_delay : N; r_width : N; r_height : N; r_left : N; r_top : N; r_dispose : disposal; r_needs_input : bool }.
Definition report_of (f : frame) : report :=
  mk_report (f_delay f) (f_width f) (f_height f) (f_left f) (f_top f) (f_dispose f) (f_needs_user_input f).
(** Lines 9-10. *)
Definition check_opts : options :=
  mk_opts (o_limit options_new) (o_color options_new) (o_check_frame_consistency options_new) (o_skip_frame_decoding options_new)
    (o_check_for_end_code options_new) true.
(** Lines 14-35, the loop: the reports, and the error message at the end, if any. *)
Fixpoint check_loop (L : lzw_codec) (umax : N) (n : nat) (d : dcd L) : dres (list report * option derr) :=
  match n with
  | O => Hang
  | S n' =>
    let '(d1, x) := read_next_frame L umax d in
    match x with
    | Ok true =>
      match check_loop L umax n' d1 with
      | Ok (rs, e) => Ok (report_of (dc_cur L d1) :: rs, e)
      | y => y
      end
    | Ok false => Ok ([], None)
    | Err e => Ok ([], Some e)
    | Panic => Panic
    | Hang => Hang
    end
  end.
(** Lines 8-35. [unwrap] in line 11 panics on an error. *)
Definition check (L : lzw_codec) (umax : N) (n : nat) (src : list revent) : dres (list report * option derr) :=
  match read_info L src check_opts with Ok d => check_loop L umax n d | Hang => Hang | _ => Panic end.

(** ** fuzz/fuzz_targets/decode.rs *)
(** Line 11, the loop. *)
Fixpoint fuzz_loop (L : lzw_codec) (umax : N) (n : nat) (d : dcd L) : dres unit :=
  match n with
  | O => Hang
  | S n' =>
    let '(d1, x) := read_next_frame L umax d in
    match x with
    | Ok true => fuzz_loop L umax n' d1
    | Ok false => Ok tt
    | Err e => Err e
    | Panic => Panic
    | Hang => Hang
    end
  end.
(** Lines 8-14 [try_decode]. [Decoder::new] uses the default options. *)
Definition try_decode (L : lzw_codec) (umax : N) (n : nat) (src : list revent) : dres unit :=
  match read_info L src options_new with
  | Ok d => fuzz_loop L umax n d
  | Err e => Err e
  | Panic => Panic
  | Hang => Hang
  end.
