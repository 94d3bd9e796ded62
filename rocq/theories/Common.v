(** Model of src/common.rs. *)
From Verif Require Import Base.
Open Scope N_scope.

(** src/common.rs 5-17 [DisposalMethod]. *)
Inductive disposal := DAny | DKeep | DBackground | DPrevious.

(** src/common.rs 8-17: [dispose as u8]. *)
Definition disposal_u8 (d : disposal) : N :=
  match d with DAny => 0 | DKeep => 1 | DBackground => 2 | DPrevious => 3 end.

(** src/common.rs 22-30 [DisposalMethod::from_u8]. *)
Definition disposal_from_u8 (n : N) : option disposal :=
  match n with
  | 0 => Some DAny | 1 => Some DKeep | 2 => Some DBackground | 3 => Some DPrevious
  | _ => None
  end.

(** src/common.rs 45-52 [Block] and its discriminants. *)
Inductive block := BkImage | BkExtension | BkTrailer.
Definition block_u8 (b : block) : N :=
  match b with BkImage => 0x2C | BkExtension => 0x21 | BkTrailer => 0x3B end.

(** src/common.rs 57-64 [Block::from_u8]. *)
Definition block_from_u8 (n : N) : option block :=
  if n =? 0x2C then Some BkImage
  else if n =? 0x21 then Some BkExtension
  else if n =? 0x3B then Some BkTrailer
  else None.

(** src/common.rs 84-103 [Extension] and its discriminants. *)
Inductive extension := XText | XControl | XComment | XApplication.
Definition extension_u8 (x : extension) : N :=
  match x with XText => 0x01 | XControl => 0xF9 | XComment => 0xFE | XApplication => 0xFF end.

(** src/common.rs 122-130 [Extension::from_u8], 108-110 [AnyExtension::into_known]. *)
Definition extension_from_u8 (n : N) : option extension :=
  if n =? 0x01 then Some XText
  else if n =? 0xF9 then Some XControl
  else if n =? 0xFE then Some XComment
  else if n =? 0xFF then Some XApplication
  else None.

(** src/common.rs 135-159 [Frame]. The [Cow] of [buffer] is dropped: a borrowed
    and an owned buffer with the same bytes are the same list. *)
Record frame := mk_frame {
  f_delay : N;
  f_dispose : disposal;
  f_transparent : option N;
  f_needs_user_input : bool;
  f_top : N;
  f_left : N;
  f_width : N;
  f_height : N;
  f_interlaced : bool;
  f_palette : option (list N);
  f_buffer : list N
}.

(** src/common.rs 161-177 [Frame::default]. *)
Definition frame_default : frame :=
  mk_frame 0 DKeep None false 0 0 0 0 false None [].

(** src/common.rs 350-364 [Frame::take]: the frame handed out, and what stays. *)
Definition frame_take (f : frame) : frame * frame :=
  (f, mk_frame (f_delay f) (f_dispose f) (f_transparent f) (f_needs_user_input f)
        (f_top f) (f_left f) (f_width f) (f_height f) (f_interlaced f) None []).

(** Field updates (Rust assignments [frame.x = ..]). *)
Definition set_buffer (f : frame) (b : list N) : frame :=
  mk_frame (f_delay f) (f_dispose f) (f_transparent f) (f_needs_user_input f)
    (f_top f) (f_left f) (f_width f) (f_height f) (f_interlaced f) (f_palette f) b.
Definition set_interlaced (f : frame) (i : bool) : frame :=
  mk_frame (f_delay f) (f_dispose f) (f_transparent f) (f_needs_user_input f)
    (f_top f) (f_left f) (f_width f) (f_height f) i (f_palette f) (f_buffer f).
Definition set_palette (f : frame) (p : option (list N)) : frame :=
  mk_frame (f_delay f) (f_dispose f) (f_transparent f) (f_needs_user_input f)
    (f_top f) (f_left f) (f_width f) (f_height f) (f_interlaced f) p (f_buffer f).
Definition set_control (f : frame) (ui : bool) (d : disposal) (delay : N) (t : option N) : frame :=
  mk_frame delay d t ui (f_top f) (f_left f) (f_width f) (f_height f)
    (f_interlaced f) (f_palette f) (f_buffer f).
Definition set_geometry (f : frame) (left top w h : N) (i : bool) : frame :=
  mk_frame (f_delay f) (f_dispose f) (f_transparent f) (f_needs_user_input f)
    top left w h i (f_palette f) (f_buffer f).

(** Length of a Rust slice as a number. *)
Definition len (l : list N) : N := N.of_nat (length l).

(** src/common.rs 269-283 [Frame::from_palette_pixels]; [None] is the [assert!] panic. *)
Definition from_palette_pixels (w h : N) (pixels palette : list N) (t : option N) : option frame :=
  if negb (w * h =? len pixels) then None
  else if negb (len palette <=? 256 * 3) then None
  else Some (mk_frame 0 DKeep t false 0 0 w h false (Some palette) pixels).

(** src/common.rs 290-302 [Frame::from_indexed_pixels]. *)
Definition from_indexed_pixels (w h : N) (pixels : list N) (t : option N) : option frame :=
  if negb (w * h =? len pixels) then None
  else Some (mk_frame 0 DKeep t false 0 0 w h false None pixels).

(** *** True-colour constructors (feature color_quant) *)

Definition rgba := (N * N * N * N)%type.
Definition rgba_eqb (x y : rgba) : bool :=
  let '(a, b, c, d) := x in let '(a', b', c', d') := y in
  (a =? a') && (b =? b') && (c =? c') && (d =? d').

(** [pixels.chunks_exact(4)]: trailing bytes that do not fill a chunk are dropped. *)
Fixpoint chunks4 (l : list N) : list rgba :=
  match l with
  | a :: b :: c :: d :: l' => (a, b, c, d) :: chunks4 l'
  | _ => []
  end.
(** [pixels.chunks_exact(3)]. *)
Fixpoint chunks3 (l : list N) : list (N * N * N) :=
  match l with
  | a :: b :: c :: l' => (a, b, c) :: chunks3 l'
  | _ => []
  end.

(** src/common.rs 216-223: the alpha normalisation loop; returns the rewritten
    pixels and the last fully transparent one. *)
Definition norm_alpha (p : rgba) : rgba :=
  let '(r, g, b, a) := p in if a =? 0 then (r, g, b, a) else (r, g, b, 0xFF).
Definition last_transparent (ps : list rgba) : option rgba :=
  fold_left (fun acc (p : rgba) => let '(r, g, b, a) := p in
                          if a =? 0 then Some (r, g, b, a) else acc) ps None.

(** src/common.rs 227-228: the [HashSet] of colours, as a duplicate-free list. *)
Definition mem_rgba (p : rgba) (l : list rgba) : bool := existsb (rgba_eqb p) l.
Definition color_set (ps : list rgba) : list rgba :=
  fold_left (fun acc p => if mem_rgba p acc then acc else p :: acc) ps [].

(** src/common.rs 246 [colors_vec.sort_unstable()]: Rust's tuple order is
    lexicographic. Insertion sort on duplicate-free input gives the same list. *)
Definition rgba_leb (x y : rgba) : bool :=
  let '(a, b, c, d) := x in let '(a', b', c', d') := y in
  if a <? a' then true else if a' <? a then false else
  if b <? b' then true else if b' <? b then false else
  if c <? c' then true else if c' <? c then false else
  d <=? d'.
Fixpoint insert_rgba (p : rgba) (l : list rgba) : list rgba :=
  match l with
  | [] => [p]
  | q :: l' => if rgba_leb p q then p :: l else q :: insert_rgba p l'
  end.
Definition sort_rgba (l : list rgba) : list rgba := fold_right insert_rgba [] l.

(** src/common.rs 248-251: [colors_lookup] maps the i-th sorted colour to i
    ([zip(0..=255)] stops after 256); [index_of] defaults to 0. *)
Fixpoint index_of_from (i : N) (p : rgba) (l : list rgba) : option N :=
  match l with
  | [] => None
  | q :: l' => if 255 <? i then None
               else if rgba_eqb p q then Some i else index_of_from (i + 1) p l'
  end.
Definition index_of (cols : list rgba) (p : rgba) : N :=
  match index_of_from 0 p cols with Some i => i | None => 0 end.

(** The external crate [color_quant]: [NeuQuant::new(speed, 256, pixels)] followed by
    [index_of] and [color_map_rgb]. Uninterpreted. *)
Record neuquant := mk_nq { nq_index : Z -> list rgba -> rgba -> N; nq_map : Z -> list rgba -> list N }.

(** src/common.rs 213-261 [Frame::from_rgba_speed]. Returns the new contents of the
    caller's pixel buffer and the frame; [None] is a panic of one of the two
    assertions. The early return inside the colour-collecting loop happens exactly
    when the number of distinct colours exceeds 256, which is how it is written here. *)
Definition from_rgba_speed (q : neuquant) (w h : N) (pixels : list N) (speed : Z)
  : option (list rgba * frame) :=
  if negb (w * h * 4 =? len pixels) then None
  else if negb ((1 <=? speed)%Z && (speed <=? 30)%Z) then None
  else
    let ps0 := chunks4 pixels in
    let tr := last_transparent ps0 in
    let ps := map norm_alpha ps0 in
    let cols := color_set ps in
    if (256 <? N.of_nat (length cols)) then
      Some (ps, mk_frame 0 DKeep (option_map (fun t => nq_index q speed ps t mod 256) tr) false
                  0 0 w h false (Some (nq_map q speed ps))
                  (map (fun p => nq_index q speed ps p mod 256) ps))
    else
      let cv := sort_rgba cols in
      Some (ps, mk_frame 0 DKeep (option_map (index_of cv) tr) false 0 0 w h false
                  (Some (flat_map (fun '(r, g, b, _) => [r; g; b]) cv))
                  (map (index_of cv) ps)).

(** src/common.rs 338-346 [Frame::from_rgb_speed]. *)
Definition from_rgb_speed (q : neuquant) (w h : N) (pixels : list N) (speed : Z) : option frame :=
  if negb (w * h * 3 =? len pixels) then None
  else option_map snd
         (from_rgba_speed q w h
            (flat_map (fun '(r, g, b) => [r; g; b; 0xFF]) (chunks3 pixels)) speed).

(** src/common.rs 193-195 and 317-319: speed 1. *)
Definition from_rgba q w h pixels := from_rgba_speed q w h pixels 1%Z.
Definition from_rgb q w h pixels := from_rgb_speed q w h pixels 1%Z.
