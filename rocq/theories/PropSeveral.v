(** Property C76: several files in one stream. *)
From Verif Require Import Base Common Lzw Encoder Stream Converter Reader ConvInv DecoderSafe DecInv SpecPixels SpecGif PixelRead DocAll
  Several LzwRef LzwRefSpec Validate Refuted PropDec.
Open Scope N_scope.

Theorem C76_files : forall L (S : lzw_spec L) umax, 2 ^ 32 - 1 <= umax -> forall o tl, limit_ok umax (o_limit o) ->
  o_skip_frame_decoding o = false -> o_check_for_end_code o = false ->
  forall gs outs ns src, Forall (gif_ok o) gs ->
  Forall2 (fun g x => Forall2 (holds L S umax o) (gif_images g) x) gs outs ->
  Forall2 (fun x n => (length x < n)%nat) outs ns ->
  delivers src (files gs tl) ->
  exists src', read_files L umax o ns src
    = Some (map (fun gx => (g_w (fst gx), g_h (fst gx), all_seen o (fst gx) (gif_images (fst gx)) (snd gx))) (combine gs outs), src') /\
    delivers src' tl.
Proof. exact several_files. Qed.
Print Assumptions C76_files.

(** A file without any block is the exception: its decoder takes a byte of what follows. *)
Theorem C76_no_blocks_refuted : exists h, length h = 13%nat /\
  match read_info lzw_ref [RChunk (h ++ [0x3B; 0x47; 0x49; 0x46])] options_new with
  | Ok d => let '(d', x) := read_next_frame lzw_ref umax64 d in (x, reopened lzw_ref d')
  | _ => (Panic, [])
  end = (Ok false, [RChunk [0x49; 0x46]]).
Proof. exists [0x47; 0x49; 0x46; 0x38; 0x39; 0x61; 1; 0; 1; 0; 0; 0; 0]. split; [reflexivity|]. vm_compute. reflexivity. Qed.
Print Assumptions C76_no_blocks_refuted.

(** The example file twice, then other bytes, delivered one byte at a time. *)
Example C76_case : exists src', read_files lzw_ref umax64 rgba_opts [3; 3]%nat (bytewise (files [dx_gif; dx_gif] dx_tail))
    = Some ([(4, 4, [dx_frame1; dx_frame2]); (4, 4, [dx_frame1; dx_frame2])], src') /\ delivers src' dx_tail.
Proof.
  assert (X : all_seen rgba_opts dx_gif (gif_images dx_gif) dx_outs = [dx_frame1; dx_frame2]) by (vm_compute; reflexivity).
  destruct (C76_files lzw_ref lzw_ref_spec umax64 dx_umax rgba_opts dx_tail dx_limit eq_refl eq_refl [dx_gif; dx_gif] [dx_outs; dx_outs] [3; 3]%nat
    (bytewise (files [dx_gif; dx_gif] dx_tail))) as (src' & A & B).
  - constructor; [exact (dx_ok _ (or_introl eq_refl))|]. constructor; [exact (dx_ok _ (or_introl eq_refl))|constructor].
  - constructor; [exact (dx_holds _ (or_introl eq_refl))|]. constructor; [exact (dx_holds _ (or_introl eq_refl))|constructor].
  - constructor; [cbn; lia|]. constructor; [cbn; lia|constructor].
  - apply bytewise_delivers, bytes_by. vm_compute. reflexivity.
  - exists src'. split; [|exact B]. rewrite A. cbn [combine map fst snd]. rewrite X. reflexivity.
Qed.
