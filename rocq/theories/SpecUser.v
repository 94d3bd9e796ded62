(** Encoder sessions in which the caller uses the writer between the calls. *)
From Verif Require Import Base Common Lzw Encoder EncoderExt Stream SpecGif SpecEnc EncLin EncSession.
Open Scope N_scope.

(** A call of the encoder, or [g] done to the writer through [get_mut]. *)
Inductive uop := UCall (o : enc_op) | UUser (g : writer -> writer).
(** The session and all its results; the caller goes on after errors. *)
Fixpoint run_user (L : lzw_codec) (dbg : bool) (e : encoder) (ops : list uop) : encoder * list (eres unit) :=
  match ops with
  | [] => (e, [])
  | o :: ops' =>
    let '(e1, r) := match o with UCall c => run_op L dbg e c | UUser g => get_mut e g end in
    let '(e2, rs) := run_user L dbg e1 ops' in (e2, r :: rs)
  end.

(** What should become of the writer: each call writes its bytes, as [wrote] says, to the writer as the caller
    left it. *)
Inductive plays (L : lzw_codec) (dbg gp : bool) : writer -> list uop -> writer -> list (eres unit) -> Prop :=
| plays_nil w : plays L dbg gp w [] w []
| plays_call w o w1 x ops w2 rs : wrote w w1 (op_bytes L dbg gp o) (op_result dbg gp o) x ->
    plays L dbg gp w1 ops w2 rs -> plays L dbg gp w (UCall o :: ops) w2 (x :: rs)
| plays_user w g ops w2 rs : plays L dbg gp (g w) ops w2 rs -> plays L dbg gp w (UUser g :: ops) w2 (Ok tt :: rs).

Definition uop_rng (o : uop) : Prop := match o with UCall c => op_rng c | UUser _ => True end.

(** A caller who writes whole blocks of their own between the calls. *)
Inductive eop := ECall (o : enc_op) | EBlocks (bs : list blk).
Definition as_user (x : eop) : uop :=
  match x with ECall o => UCall o | EBlocks bs => UUser (fun w => fst (write_all (ser_blocks bs) w)) end.
Definition eop_blocks (L : lzw_codec) (x : eop) : list blk :=
  match x with ECall o => op_blocks L o | EBlocks bs => bs end.
Definition user_gif (L : lzw_codec) (w h : N) (pal : list N) (ops : list eop) : gif :=
  mk_gif true w h (128 + 16 * size_field (colors pal) + size_field (colors pal)) 0 0
    (padded pal) (flat_map (eop_blocks L) ops).
