(** Unknown blocks (reader/decoder.rs, lines 644-652: [allow_unknown_blocks]): a file with
    tolerated unknown blocks shows the pictures of the file without them. *)
From Verif Require Import Base Common Lzw Stream Reader SpecPixels SpecGif DocRead DocAll Rewrite.

(** The file with its unknown blocks left out. *)
Definition is_unknown (b : blk) : bool := match b with BUnk _ _ => true | _ => false end.
Definition drop_unknown (g : gif) : gif :=
  mk_gif (g_89a g) (g_w g) (g_h g) (g_flags g) (g_bg g) (g_aspect g) (g_gct g)
    (filter (fun b => negb (is_unknown b)) (g_blocks g)).

Lemma controlled_drop bs : forall c, controlled c (filter (fun b => negb (is_unknown b)) bs) = controlled c bs.
Proof.
  induction bs as [|b bs IH]; intros c; [reflexivity|].
  destruct b as [l subs|i|t subs]; cbn [filter is_unknown negb controlled]; rewrite ?IH; reflexivity.
Qed.
Lemma unknown_ok_drop o bs : forall l n, unknown_ok o l n (filter (fun b => negb (is_unknown b)) bs).
Proof.
  induction bs as [|b bs IH]; intros l n; [exact I|].
  destruct b; cbn [filter is_unknown negb unknown_ok]; apply IH.
Qed.
Lemma gif_images_drop g : gif_images (drop_unknown g) = gif_images g.
Proof. unfold gif_images, drop_unknown. cbn [g_blocks]. apply controlled_drop. Qed.
Lemma gif_ok_drop o g : gif_ok o g -> g_blocks (drop_unknown g) <> [] -> gif_ok o (drop_unknown g).
Proof.
  unfold gif_ok, drop_unknown. cbn [g_89a g_w g_h g_flags g_bg g_aspect g_gct g_blocks].
  intros H Hne. repeat match goal with H : _ /\ _ |- _ => destruct H end.
  do 7 (split; [assumption|]). split; [|apply unknown_ok_drop].
  match goal with H : Forall _ _ |- _ => rename H into HF end.
  rewrite Forall_forall in *. intros b Hb. apply filter_In in Hb. specialize (HF b (proj1 Hb)). destruct b; exact HF.
Qed.
Lemma all_seen_drop o g l outs : all_seen o (drop_unknown g) l outs = all_seen o g l outs.
Proof. reflexivity. Qed.

Section U.
Variable L : lzw_codec.
Variable S : lzw_spec L.
Variable umax : N.
Hypothesis Humax : 2 ^ 32 - 1 <= umax.

Theorem unknown_frames o g tl src src0 outs n : gif_ok o g -> g_blocks (drop_unknown g) <> [] ->
  delivers src (ser_gif g tl) -> delivers src0 (ser_gif (drop_unknown g) tl) ->
  o_skip_frame_decoding o = false -> o_check_for_end_code o = false ->
  Forall2 (holds L S umax o) (gif_images g) outs -> (length outs < n)%nat ->
  exists d d' d0 d0' fs, read_info L src o = Ok d /\ read_info L src0 o = Ok d0 /\
    read_all L umax n d = (d', fs, Ok false) /\ read_all L umax n d0 = (d0', fs, Ok false) /\
    length fs = length (gif_images g) /\
    dec_width L d = dec_width L d0 /\ dec_height L d = dec_height L d0 /\
    dec_global_palette L d = dec_global_palette L d0 /\ dec_bg_color L d = dec_bg_color L d0.
Proof.
  intros Hg Hne Hd Hd0 N1 N2 Ho Hn. pose proof (gif_ok_drop o g Hg Hne) as Hg0.
  destruct (file_frames L S umax Humax o g tl src outs n Hg Hd N1 N2 Ho Hn) as (d & d' & E & F & _).
  destruct (file_frames L S umax Humax o (drop_unknown g) tl src0 outs n Hg0 Hd0 N1 N2) as (d0 & d0' & E0 & F0 & _);
    [rewrite gif_images_drop; exact Ho|exact Hn|].
  destruct (file_info L S umax Humax o g tl src Hg Hd) as (e & Ee & A1 & A2 & A3 & A4 & _).
  destruct (file_info L S umax Humax o _ tl src0 Hg0 Hd0) as (e0 & Ee0 & B1 & B2 & B3 & B4 & _).
  rewrite E in Ee. injection Ee as <-. rewrite E0 in Ee0. injection Ee0 as <-.
  rewrite gif_images_drop, all_seen_drop in F0.
  exists d, d', d0, d0', (all_seen o g (gif_images g) outs).
  split; [exact E|]. split; [exact E0|]. split; [exact F|]. split; [exact F0|].
  split. { unfold all_seen. rewrite map_length, combine_length, (forall2_length _ _ _ Ho). apply Nat.min_id. }
  rewrite A1, A2, A3, A4, B1, B2, B3, B4. repeat split.
Qed.

Theorem unknown_scan o g tl src src0 n : gif_ok o g -> g_blocks (drop_unknown g) <> [] ->
  delivers src (ser_gif g tl) -> delivers src0 (ser_gif (drop_unknown g) tl) ->
  scannable o -> (length (gif_images g) < n)%nat ->
  exists d d' d0 d0' fs, read_info L src o = Ok d /\ read_info L src0 o = Ok d0 /\
    scan_all L n d = (d', fs, Ok false) /\ scan_all L n d0 = (d0', fs, Ok false) /\
    length fs = length (gif_images g).
Proof.
  intros Hg Hne Hd Hd0 Ho Hn. pose proof (gif_ok_drop o g Hg Hne) as Hg0.
  destruct (file_scan L S umax Humax o g tl src n Hg Hd Ho Hn) as (d & d' & E & F & _).
  destruct (file_scan L S umax Humax o (drop_unknown g) tl src0 n Hg0 Hd0) as (d0 & d0' & E0 & F0 & _);
    rewrite ?gif_images_drop in *; [exact Ho|exact Hn|].
  exists d, d', d0, d0', (map meta_seen (gif_images g)).
  split; [exact E|]. split; [exact E0|]. split; [exact F|]. split; [exact F0|apply map_length].
Qed.
End U.
