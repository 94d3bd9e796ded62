(** Further documented or expected behaviour that the code does not have, each with a witness: an empty palette (C02), a surplus
    call of [fill_buffer] (C31), an extension of unknown kind (C36) and bytes not submitted again (C14). *)
From Verif Require Import Base Common Lzw Encoder EncoderExt Stream Converter Reader LzwRef LzwRefSpec Validate Refuted PropDec PropErrors.
Open Scope N_scope.

(** ** C02
    [Encoder::new]: "global_palette gives the global color palette in the format [r, g, b, ...], if no global palette shall be used
    an empty slice may be supplied." The file nevertheless declares a global palette, of two black colours, and so the decoder
    reports one. *)
Definition no_palette_file : list N :=
  out_of (fst (run_ops lzw_ref false (fst (encoder_new fresh 1 1 [])) [OWriteFrame (set_palette dot (Some [1; 2; 3]))])).
Theorem C02_no_palette_refuted :
  firstn 19 no_palette_file = [0x47; 0x49; 0x46; 0x38; 0x39; 0x61; 1; 0; 1; 0; 0x80; 0; 0] ++ [0; 0; 0; 0; 0; 0] /\
  match read_info lzw_ref [RChunk (no_palette_file ++ [0x3B])] options_new with
  | Ok d => dec_global_palette lzw_ref d | _ => None end = Some [0; 0; 0; 0; 0; 0].
Proof. split; vm_compute; reflexivity. Qed.
Print Assumptions C02_no_palette_refuted.

(** ** C31
    [Decoder::fill_buffer] "returns true if the supplied buffer could be filled completely. Should not be called after `false` had
    been returned." A caller who does it anyway loses the following frame: the surplus calls swallow its block start and its
    metadata and fail, the third one returns its pixels, and [next_frame_info] then finds the end of the file. *)
Definition two_frames : list revent := file (px1 ++ img_desc 0 0 1 1 0 ++ data_of 2 [0] ++ [0x3B]).
Definition outs_of (src : list revent) (o : options) (ops : list dop) : option (list dout) :=
  match read_info lzw_ref src o with Ok d => Some (snd (run_dops lzw_ref umax64 d ops)) | _ => None end.
Theorem C31_surplus_fill_refuted :
  outs_of two_frames ix [OpInfo; OpFill [7]; OpFill [7]; OpInfo; OpFill [7]; OpInfo]
  = Some [OutBool (Ok true); OutFill [1] (Ok true); OutFill [7] (Ok false); OutBool (Ok true); OutFill [0] (Ok true); OutBool (Ok false)] /\
  outs_of two_frames ix [OpInfo; OpFill [7]; OpFill [7]; OpFill [7]; OpFill [7]; OpFill [7]; OpInfo]
  = Some [OutBool (Ok true); OutFill [1] (Ok true); OutFill [7] (Ok false);
          OutFill [7] (Err (DFormat UnexpectedDataMsg)); OutFill [7] (Err (DFormat UnexpectedDataMsg)); OutFill [0] (Ok true);
          OutBool (Ok false)].
Proof. split; vm_compute; reflexivity. Qed.
Print Assumptions C31_surplus_fill_refuted.

(** ** C36
    [DecodeOptions::allow_unknown_blocks] "allows unknown blocks in between frames". An extension whose label is none of the four
    known ones is refused all the same, although its data could be skipped like those of any other extension. *)
Definition with_label (l : N) : list revent :=
  [RChunk (head44 ++ [0x21; l; 1; 65; 0] ++ img_desc 0 0 1 1 0 ++ data_of 2 [1] ++ [0x3B])].
Definition label_answer (l : N) : nat * dres unit :=
  if (l =? 0x01) || (l =? 0xFE) || (l =? 0xFF) then (1%nat, Ok tt)
  else if l =? 0xF9 then (0%nat, Err (DFormat ControlWrongLength)) else (0%nat, Err (DFormat UnknownBlockType)).
Definition answers (l : N) : bool :=
  match summary (frames_of (with_label l) lenient_opts), label_answer l with
  | (n, Ok _), (m, Ok _) => Nat.eqb n m
  | (n, Err (DFormat ControlWrongLength)), (m, Err (DFormat ControlWrongLength)) => Nat.eqb n m
  | (n, Err (DFormat UnknownBlockType)), (m, Err (DFormat UnknownBlockType)) => Nat.eqb n m
  | _, _ => false
  end.
Lemma answers_ok l : answers l = true -> summary (frames_of (with_label l) lenient_opts) = label_answer l.
Proof.
  unfold answers. generalize (summary (frames_of (with_label l) lenient_opts)) (label_answer l). intros [n x] [m y] H.
  destruct x as [[]|[[]|]| |]; destruct y as [[]|[[]|]| |]; try discriminate; apply Nat.eqb_eq in H; subst; reflexivity.
Qed.
Definition all_bytes : list N := map N.of_nat (seq 0 256).
Lemma all_bytes_in l : l < 256 -> In l all_bytes.
Proof. intros H. apply in_map_iff. exists (N.to_nat l). split; [lia|]. apply in_seq. lia. Qed.
Theorem C36_unknown_label_refuted :
  o_allow_unknown_blocks lenient_opts = true /\
  forall l, l < 256 -> summary (frames_of (with_label l) lenient_opts)
  = (if (l =? 0x01) || (l =? 0xFE) || (l =? 0xFF) then (1%nat, Ok tt)
     else if l =? 0xF9 then (0%nat, Err (DFormat ControlWrongLength)) else (0%nat, Err (DFormat UnknownBlockType))).
Proof.
  split; [reflexivity|]. intros l H. apply answers_ok.
  assert (A : forallb answers all_bytes = true) by (vm_compute; reflexivity).
  rewrite forallb_forall in A. exact (A l (all_bytes_in l H)).
Qed.
Print Assumptions C36_unknown_label_refuted.

(** ** C14
    [StreamingDecoder::update] "returns the number of bytes consumed". A caller who passes each byte once and ignores that number
    trips a debug assertion: the byte 0 that ends an application extension is looked at twice. Passing what was not consumed
    again is safe ([driven], [C72_streaming]). *)
Fixpoint push_all (s : sd lzw_ref) (bs : list N) : dres unit :=
  match bs with
  | [] => Ok tt
  | b :: t =>
    match update lzw_ref s [b] ONone with
    | (s1, _, Ok _) => push_all s1 t
    | (_, _, Err e) => Err e
    | (_, _, Panic) => Panic
    | (_, _, Hang) => Hang
    end
  end.
Definition looping : list N :=
  head44 ++ [0x21; 0xFF; 11; 78; 69; 84; 83; 67; 65; 80; 69; 50; 46; 48; 3; 1; 0; 0; 0] ++
  img_desc 0 0 1 1 0 ++ data_of 2 [1] ++ [0x3B].
Theorem C14_bytes_once_refuted :
  push_all (sd_new lzw_ref options_new) looping = Panic /\
  summary (frames_of (bytewise looping) options_new) = (1%nat, Ok tt).
Proof. split; vm_compute; reflexivity. Qed.
Print Assumptions C14_bytes_once_refuted.
