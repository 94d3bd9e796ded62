(** The options builder: which setting a chain of calls leaves behind. *)
From Verif Require Import Base Common Lzw Encoder Stream Converter Reader SpecGif SpecPixels DocRead DocAll.
Open Scope N_scope.

(** The calls that change a [DecodeOptions]. *)
Inductive opt_call :=
| SetColorOutput (c : color_output)
| SetMemoryLimit (l : memory_limit)
| CheckFrameConsistency (b : bool)
| SkipFrameDecoding (b : bool)
| CheckLzwEndCode (b : bool)
| AllowUnknownBlocks (b : bool).

(** src/reader/mod.rs 124-126 [set_color_output], 129-131 [set_memory_limit], 143-145 [check_frame_consistency],
    155-157 [skip_frame_decoding], 170-172 [check_lzw_end_code], 185-187 [allow_unknown_blocks]: each one assigns one
    field. *)
Definition opt_apply (o : options) (c : opt_call) : options :=
  let '(mk_opts l col fit skip endc unk) := o in
  match c with
  | SetColorOutput c => mk_opts l c fit skip endc unk
  | SetMemoryLimit l => mk_opts l col fit skip endc unk
  | CheckFrameConsistency b => mk_opts l col b skip endc unk
  | SkipFrameDecoding b => mk_opts l col fit b endc unk
  | CheckLzwEndCode b => mk_opts l col fit skip b unk
  | AllowUnknownBlocks b => mk_opts l col fit skip endc b
  end.
Definition configure (o : options) (cs : list opt_call) : options := fold_left opt_apply cs o.

(** src/reader/mod.rs 101-105 [Default::default], 261-263 [Decoder::build]: the same as [DecodeOptions::new]. *)
Definition options_default : options := options_new.
Definition decoder_build : options := options_new.
(** src/reader/mod.rs 254-256 [Decoder::new]. *)
Definition decoder_new (L : lzw_codec) (src : list revent) : dres (dcd L) := read_info L src options_new.
(** src/reader/decoder.rs 393-396 [StreamingDecoder::new]. *)
Definition streaming_new (L : lzw_codec) : sd L := sd_new L options_new.

(** ** Specification *)
(** [v] is the argument of the last call that [pick] recognises, or [dflt] if there is none. *)
Definition last_set {A} (pick : opt_call -> option A) (dflt : A) (cs : list opt_call) (v : A) : Prop :=
  (exists a c b, cs = a ++ c :: b /\ pick c = Some v /\ forall x, In x b -> pick x = None) \/
  (v = dflt /\ forall x, In x cs -> pick x = None).
Definition p_color c := match c with SetColorOutput x => Some x | _ => None end.
Definition p_limit c := match c with SetMemoryLimit x => Some x | _ => None end.
Definition p_consistency c := match c with CheckFrameConsistency x => Some x | _ => None end.
Definition p_skip c := match c with SkipFrameDecoding x => Some x | _ => None end.
Definition p_end c := match c with CheckLzwEndCode x => Some x | _ => None end.
Definition p_unknown c := match c with AllowUnknownBlocks x => Some x | _ => None end.

(** All settings of [o], as left behind by the calls [cs]. *)
Definition settings_of (cs : list opt_call) (o : options) : Prop :=
  last_set p_limit (Some 50000000) cs (o_limit o) /\ last_set p_color CIndexed cs (o_color o) /\
  last_set p_consistency false cs (o_check_frame_consistency o) /\ last_set p_skip false cs (o_skip_frame_decoding o) /\
  last_set p_end false cs (o_check_for_end_code o) /\ last_set p_unknown false cs (o_allow_unknown_blocks o).

(** What [read_next_frame] says about an image, for a memory limit [l] and the colour output [c]. *)
Definition delivered (l : memory_limit) (c : color_output) (g : gif) (ci : ctl * img) (out : list N)
    (r : frame * list N * dres bool) : Prop :=
  let i := snd ci in
  let size := (N.of_nat (px_bytes c) * im_w i * im_h i)%N in
  let x := snd r in
  let f := fst (fst r) in
  if match l with Some n => (n <? size)%N | None => false end then x = Err (DIo OutOfMemory)
  else if (len out <? im_w i * im_h i)%N then x = Err (DFormat ImageTruncated)
  else x = Ok true /\
    f = meta_frame (fst ci) i false (shown c (pal_of g i) (c_transparent (fst ci)) (im_picture i out)).
