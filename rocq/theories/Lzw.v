(** The external crate [weezl] as used by /repo, and what is assumed of it. *)
From Verif Require Import Base.

(** Status of one decode call ([LzwStatus] and [LzwError::InvalidCode]). *)
Inductive lz_status := LzOk | LzDone | LzNoProgress | LzInvalid.

(** Operations of weezl used by /repo (src/encoder.rs 396-397,
    src/reader/decoder.rs 276-297), all with [BitOrder::Lsb]:
    - [lz_new size]: [decode::Decoder::new(Lsb, size)];
    - [lz_reset]: [Decoder::reset];
    - [lz_ended]: [Decoder::has_ended];
    - [lz_decode s inp cap]: [decode_bytes(inp, out)] with [out.len() = cap]; returns the
      new state, [consumed_in], the bytes stored at the start of [out]
      ([consumed_out] many) and the status. It is assumed not to store elsewhere;
    - [lz_encode size data]: the bytes appended by
      [Encoder::new(Lsb, size).into_vec(buffer).encode_all(data)]. *)
Record lzw_codec := mk_lzw {
  lz_st : Type;
  lz_new : N -> lz_st;
  lz_reset : lz_st -> lz_st;
  lz_ended : lz_st -> bool;
  lz_decode : lz_st -> list N -> nat -> lz_st * (nat * list N * lz_status);
  lz_encode : N -> list N -> list N
}.

(** Safety: a call never claims to have read or written more than it was given. *)
Definition lzw_safe (L : lzw_codec) : Prop :=
  forall s inp cap s' n w st,
    lz_decode L s inp cap = (s', (n, w, st)) -> n <= length inp /\ length w <= cap.

(** Functional contract. [lz_pending s inp out]: the decoder in state [s], given exactly
    the remaining compressed bytes [inp], is to deliver exactly [out] and meets no
    invalid code. [lz_size s m]: [s] was created for minimum code size [m]. *)
Record lzw_spec (L : lzw_codec) := mk_lzw_spec {
  lz_is_safe : lzw_safe L;
  lz_pending : lz_st L -> list N -> list N -> Prop;
  lz_size : lz_st L -> N -> Prop;
  lz_size_new : forall m, lz_size (lz_new L m) m;
  lz_size_reset : forall s m, lz_size s m -> lz_size (lz_reset L s) m;
  lz_size_decode : forall s m inp cap s' r,
      lz_size s m -> lz_decode L s inp cap = (s', r) -> lz_size s' m;
  (** [reset] is as good as [new]. *)
  lz_pending_reset : forall s m inp out,
      lz_size s m -> lz_pending (lz_new L m) inp out -> lz_pending (lz_reset L s) inp out;
  (** A decoder that is given nothing delivers nothing (and has met no invalid code). *)
  lz_new_nil : forall m, (1 <= m <= 11)%N -> lz_pending (lz_new L m) [] [];
  (** A call on the first part of the input writes the first part of the output. *)
  lz_step : forall s a b cap out s' n w st,
      lz_pending s (a ++ b) out -> lz_decode L s a cap = (s', (n, w, st)) ->
      st <> LzInvalid /\
      exists out', out = w ++ out' /\ lz_pending s' (skipn n a ++ b) out';
  (** Progress: with input and room it consumes, produces, or finds the end code. *)
  lz_live : forall s a b cap out s' n w st,
      lz_pending s (a ++ b) out -> lz_decode L s a cap = (s', (n, w, st)) ->
      a <> [] -> 0 < cap -> lz_ended L s = false -> 0 < n \/ w <> [] \/ lz_ended L s' = true;
  (** When all input is inside the decoder, it delivers what is left. *)
  lz_drain : forall s cap out s' n w st,
      lz_pending s [] out -> lz_decode L s [] cap = (s', (n, w, st)) ->
      out <> [] -> 0 < cap -> w <> [];
  lz_ended_nil : forall s inp out,
      lz_pending s inp out -> lz_ended L s = true -> out = [];
  (** The encoder is inverted by the decoder (minimum code sizes chosen by /repo are 2..8). *)
  lz_encode_pending : forall m data,
      (2 <= m <= 8)%N -> Forall (fun b => (b < 2 ^ m)%N) data ->
      lz_pending (lz_new L m) (lz_encode L m data) data;
  lz_encode_bytes : forall m data,
      (2 <= m <= 8)%N -> Forall (fun b => (b < 2 ^ m)%N) data -> bytes_ok (lz_encode L m data);
  lz_encode_nonempty : forall m data,
      (2 <= m <= 8)%N -> Forall (fun b => (b < 2 ^ m)%N) data -> data <> [] -> lz_encode L m data <> []
}.
Arguments lz_pending {L} _ _ _ _.
Arguments lz_size {L} _ _ _.

(** Eager delivery, needed only by [FrameDecoder]: a call that takes in all the remaining input
    and has room delivers something if anything is left. *)
Definition lzw_eager {L} (S : lzw_spec L) : Prop :=
  forall s a cap out s' n w st,
    lz_pending S s a out -> lz_decode L s a cap = (s', (n, w, st)) ->
    out <> [] -> 0 < cap -> n = length a -> w <> [].
