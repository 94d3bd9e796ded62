(** What [StreamingDecoder::last_ext] (label, data so far, whether the block has ended) should show after a call of
    [update] that took the bytes [used] and reported [d], if it showed [x] before. *)
From Verif Require Import Base Common Lzw Encoder Stream.
Open Scope N_scope.

Definition ext_after (x : N * list N * bool) (d : decoded) (used : list N) (x' : N * list N * bool) : Prop :=
  let '(id, data, fin) := x in
  let '(id', data', fin') := x' in
  match d with
  (* a new extension: its label is the last byte taken *)
  | DBlockStart BkExtension => data' = [] /\ fin' = fin /\ In id' [0x01; 0xF9; 0xFE; 0xFF] /\ exists front, used = front ++ [id']
  (* the bytes before the size of the next block have been added *)
  | DSubBlockFinished i => i = id /\ id' = id /\ fin' = false /\
      exists front xs b, used = front ++ xs ++ [b] /\ b <> 0 /\ data' = data ++ xs
  (* the bytes before the final zero have been added; after an application extension the zero is left *)
  | DBlockFinished i => i = id /\ id' = id /\ fin' = true /\
      exists front xs, used = front ++ xs ++ (if id =? 0xFF then [] else [0]) /\ data' = data ++ xs
  (* the input ran out *)
  | DNothing => id' = id /\ fin' = fin /\ exists front xs, used = front ++ xs /\ data' = data ++ xs
  | _ => x' = x
  end.

(** [reading L o file s taken]: calls of [update] without an error, each on a piece of what was left of [file], have taken
    [taken] and led from a new decoder to [s]. *)
Inductive reading (L : lzw_codec) (o : options) (file : list N) : sd L -> list N -> Prop :=
| rd_new : reading L o file (sd_new L o) []
| rd_more s taken buf tl ob s' ob' n d : reading L o file s taken -> file = taken ++ buf ++ tl ->
    update L s buf ob = (s', ob', Ok (n, d)) -> reading L o file s' (taken ++ firstn n buf).

(** What [version], [width] and [height] should return after [taken]. *)
Definition header_view (taken : list N) (v : version) (w h : N) : Prop :=
  let byte i := nth i taken 0 in
  ((length taken < 6)%nat -> v = V87a) /\
  ((6 <= length taken)%nat -> firstn 6 taken = [0x47; 0x49; 0x46; 0x38; match v with V87a => 0x37 | V89a => 0x39 end; 0x61]) /\
  ((length taken < 13)%nat -> w = 0 /\ h = 0) /\
  ((13 <= length taken)%nat -> w = byte 6%nat + 256 * byte 7%nat /\ h = byte 8%nat + 256 * byte 9%nat).
