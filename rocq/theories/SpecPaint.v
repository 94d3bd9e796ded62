(** What a call does to the caller's slice (C83). *)
From Verif Require Import Base Common Lzw Stream Converter Reader DocAll.
Open Scope N_scope.

(** One entry per byte of the slice: [Some v], the byte is set to [v]; [None], it is left alone. *)
Definition over (ov : list (option N)) (buf : list N) : list N :=
  map (fun p => match fst p with Some v => v | None => snd p end) (combine ov buf).
Definition set_bytes (ov : list (option N)) : Prop := Forall (fun v => v <> None) ov.
Definition left_alone (ov : list (option N)) : Prop := Forall (fun v => v = None) ov.

(** A caller who reads a file with [next_frame_info] and [read_into_buffer]; [mk i n] is the slice provided for a frame of [n] bytes when
    [i] further calls are planned. Not in /repo. *)
Fixpoint into_all (L : lzw_codec) (umax : N) (mk : nat -> N -> list N) (n : nat) (d : dcd L) : dcd L * list (frame * list N) * dres bool :=
  match n with
  | O => (d, [], Ok true)
  | S i =>
    let '(d1, x) := next_frame_info L d in
    match x with
    | Ok true =>
      match dec_buffer_size L umax d1 with
      | None => (d1, [], Panic)
      | Some k =>
        let '(d2, b, y) := read_into_buffer L umax d1 (mk i k) in
        match y with
        | Ok _ => let '(d3, l, z) := into_all L umax mk i d2 in (d3, (dc_cur L d1, b) :: l, z)
        | Err e => (d2, [], Err e)
        | Panic => (d2, [], Panic)
        | Hang => (d2, [], Hang)
        end
      end
    | _ => (d1, [], x)
    end
  end.

(** [f] as returned by [read_next_frame], [p] the frame of [next_frame_info] and the slice after [read_into_buffer]; [slice] before. *)
Definition same_picture (c : color_output) (slice : N -> list N) (f : frame) (p : frame * list N) : Prop :=
  let n := f_width f * f_height f * N.of_nat (match c with CRgba => 4 | CIndexed => 1 end) in
  exists ov, length ov = N.to_nat n /\ f = set_interlaced (set_buffer (fst p) (over ov (repeat 0 (N.to_nat n)))) false /\
    snd p = over ov (firstn (N.to_nat n) (slice n)) ++ skipn (N.to_nat n) (slice n) /\ (c = CIndexed -> set_bytes ov).
Fixpoint same_pictures (c : color_output) (mk : nat -> N -> list N) (n : nat) (fs : list frame) (l : list (frame * list N)) : Prop :=
  match n, fs, l with
  | _, [], [] => True
  | S i, f :: fs', p :: l' => same_picture c (mk i) f p /\ same_pictures c mk i fs' l'
  | _, _, _ => False
  end.
(** Bytes that an event of the streaming decoder reports as stored in the slice. *)
Definition told (d : decoded) : nat := match d with DBytesDecoded n => n | DLzwDataCopied n => n | _ => O end.
