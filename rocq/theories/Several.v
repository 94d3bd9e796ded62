(** Several files in one stream: what [into_inner] gives back can be handed to the next decoder. *)
From Verif Require Import Base Common Lzw Encoder Stream Converter Reader StreamInv Steps ReaderInv Interlace Ranges ConvInv
  DecoderSafe DecInv Canon CanonReader SpecPixels SpecGif Pixels PixelRead DocAll.
Open Scope N_scope.

(** The reader recovered from a decoder: what its buffer still holds, then the rest of the source. *)
Definition reopened (L : lzw_codec) (d : dcd L) : list revent :=
  let '(buf, rest) := dec_into_inner L d in match buf with [] => rest | _ => RChunk buf :: rest end.

(** Read one file after the other, calling [read_next_frame] at most [n] times for each. *)
Fixpoint read_files (L : lzw_codec) (umax : N) (o : options) (ns : list nat) (src : list revent)
  : option (list (N * N * list frame) * list revent) :=
  match ns with
  | [] => Some ([], src)
  | n :: ns =>
    match read_info L src o with
    | Ok d =>
      match read_all L umax n d with
      | (d', fs, Ok false) =>
        match read_files L umax o ns (reopened L d') with
        | Some (r, src') => Some ((dec_width L d, dec_height L d, fs) :: r, src')
        | None => None
        end
      | _ => None
      end
    | _ => None
    end
  end.

(** One file after the other, then [tl]. *)
Fixpoint files (gs : list gif) (tl : list N) : list N :=
  match gs with [] => tl | g :: gs => ser_gif g (files gs tl) end.

Section Several.
Variable L : lzw_codec.
Hypothesis S : lzw_spec L.
Variable umax : N.
Hypothesis Humax : 2 ^ 32 - 1 <= umax.
Let safe := lz_is_safe _ S.

Lemma hist_src src o r : src_ok src -> good_src src -> hist L src o r -> good_src (rd_src L r).
Proof.
  intros Hs Hg. induction 1 as [|r ob r' ob' x Hr IH E|r ob r' ob' t f Hr IH E Ef]; [exact Hg| |].
  - destruct (hist_good L safe src o Hs r Hr) as [(W & _) _]. exact (decode_next_src L safe r ob r' ob' x W IH E).
  - destruct (hist_good L safe src o Hs r Hr) as [(W & _) _]. exact (decode_next_src L safe r ob r' ob' _ W IH E).
Qed.

Lemma read_all_opened src o n : forall d d' fs x, opened L umax src o d -> read_all L umax n d = (d', fs, x) -> opened L umax src o d'.
Proof.
  induction n as [|n IH]; intros d d' fs x Hd E; cbn [read_all] in E; [injection E as <- _ _; exact Hd|].
  destruct (read_next_frame L umax d) as [d1 y] eqn:E1.
  assert (Hd1 : opened L umax src o d1).
  { apply (op_call L umax src o d OpFrame d1 (OutBool y) Hd); [exact I|]. cbn [run_dop]. rewrite E1. reflexivity. }
  destruct y as [[|]|e| |].
  - destruct (read_all L umax n d1) as [[d2 fs2] y2] eqn:E2. injection E as <- _ _. exact (IH _ _ _ _ Hd1 E2).
  - injection E as <- _ _. exact Hd1.
  - injection E as <- _ _. exact Hd1.
  - injection E as <- _ _. exact Hd1.
  - injection E as <- _ _. exact Hd1.
Qed.

Lemma reopened_delivers src o d : src_ok src -> good_src src -> limit_ok umax (o_limit o) -> opened L umax src o d ->
  delivers (reopened L d) (rd_rest L (dc_rd L d)).
Proof.
  intros Hs Hg Hl Hd. destruct (opened_good L umax safe Humax src o Hs d Hl Hd) as (((_ & Hb & _) & _) & _ & Hh).
  pose proof (hist_src src o _ Hs Hg Hh) as G. destruct Hb as [B1 B2].
  unfold reopened, dec_into_inner, rd_rest. destruct (rd_buf L (dc_rd L d)) as [|b buf].
  - split; [exact B2|]. split; [exact G|]. reflexivity.
  - split; [constructor; [exact B1|exact B2]|]. split; [constructor; [exact I|exact G]|]. reflexivity.
Qed.

Theorem several_files o tl : limit_ok umax (o_limit o) -> o_skip_frame_decoding o = false -> o_check_for_end_code o = false ->
  forall gs outs ns src, Forall (gif_ok o) gs ->
  Forall2 (fun g x => Forall2 (holds L S umax o) (gif_images g) x) gs outs ->
  Forall2 (fun x n => (length x < n)%nat) outs ns ->
  delivers src (files gs tl) ->
  exists src', read_files L umax o ns src
    = Some (map (fun gx => (g_w (fst gx), g_h (fst gx), all_seen o (fst gx) (gif_images (fst gx)) (snd gx))) (combine gs outs), src') /\
    delivers src' tl.
Proof.
  intros Hl H1 H2. induction gs as [|g gs IH]; intros outs ns src Hg Ho Hn Hd.
  - inversion Ho; subst. inversion Hn; subst. cbn [read_files combine map]. exists src. auto.
  - inversion Ho as [|? x ? outs' Hx Ho']; subst. inversion Hn as [|? n ? ns' Hxn Hn']; subst. inversion Hg as [|? ? Hg1 Hg2]; subst.
    cbn [files] in Hd. destruct (file_frames L S umax Humax o g _ src x n Hg1 Hd H1 H2 Hx Hxn) as (d & d' & E & F & R).
    destruct (file_info L S umax Humax o g _ src Hg1 Hd) as (d0 & E0 & W & H & _). rewrite E in E0. injection E0 as <-.
    assert (Hop : opened L umax src o d') by (eapply read_all_opened; [apply op_info; exact E|exact F]).
    pose proof (reopened_delivers src o d' (proj1 Hd) (proj1 (proj2 Hd)) Hl Hop) as D. rewrite R in D.
    destruct (IH outs' ns' (reopened L d') Hg2 Ho' Hn' D) as (src' & A & B).
    exists src'. split; [|exact B]. cbn [read_files combine map fst snd]. rewrite E, F, A, W, H. reflexivity.
Qed.
End Several.
