(** A caller of [StreamingDecoder] who changes the frame under construction through [current_frame_mut]
    (src/reader/decoder.rs 454-456) between calls of [update]. *)
From Verif Require Import Base Common Lzw Encoder Stream.

(** [MChange g cap]: [current_frame_mut] is used to replace the frame [f] by [g f], the palette of which has the
    capacity [cap]. Without a frame under construction [current_frame_mut] panics. *)
Inductive mop := MFeed (buf : list N) (ob : obuf) | MChange (g : frame -> frame) (cap : nat).

(** The results of the calls of [update], in order; [None]: a call of [current_frame_mut] panicked. *)
Fixpoint run_mops (L : lzw_codec) (s : sd L) (ops : list mop) : option (sd L * list (obuf * dres (nat * decoded))) :=
  match ops with
  | [] => Some (s, [])
  | MFeed buf ob :: ops' =>
    let '(s1, ob1, r) := update L s buf ob in
    match run_mops L s1 ops' with Some (s2, rs) => Some (s2, (ob1, r) :: rs) | None => None end
  | MChange g cap :: ops' =>
    match sd_current L s with Some f => run_mops L (set_current L s (Some (g f)) cap) ops' | None => None end
  end.

(** The same caller, keeping its hands off the frame. *)
Definition is_feed (o : mop) : bool := match o with MFeed _ _ => true | MChange _ _ => false end.
Definition hands_off (ops : list mop) : list mop := filter is_feed ops.

(** Two decoders that differ at most in the frame under construction. *)
Record alike {L} (s s' : sd L) : Prop := mk_alike {
  al_state : sd_state L s = sd_state L s';
  al_ibuf : sd_ibuf L s = sd_ibuf L s';
  al_lzw : sd_lzw L s = sd_lzw L s';
  al_opts : sd_opts L s = sd_opts L s';
  al_version : sd_version L s = sd_version L s';
  al_width : sd_width L s = sd_width L s';
  al_height : sd_height L s = sd_height L s';
  al_gct : sd_gct L s = sd_gct L s';
  al_gct_cap : sd_gct_cap L s = sd_gct_cap L s';
  al_ext : last_ext L s = last_ext L s';
  al_header : sd_header_end L s = sd_header_end L s';
  al_frame : sd_current L s = None <-> sd_current L s' = None
}.
