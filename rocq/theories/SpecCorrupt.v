(** What a caller is told about an image whose data contain an invalid LZW code, stated from the image, the pixels
    before the invalid code and the caller's request alone. *)
From Verif Require Import Base Common Lzw LzwErrs Encoder Stream Converter Reader SpecGif SpecPixels DocRead DocAll Mixed.
Open Scope nat_scope.

Section C.
Variable umax : N.
Variable o : options.

(** Either the error, which is possible only if the pixels before the invalid code are not more than needed; or the same
    as if there were no invalid code, which is possible only if they are enough. *)
Definition told_bad (g : gif) (m : how) (ci : ctl * img) (out : list N) (r : frame * list N * dres bool) : Prop :=
  let '(f, b, x) := r in
  let i := snd ci in
  let over px old := shown_over (o_color o) (pal_of g i) (c_transparent (fst ci)) px old in
  let pb := px_bytes (o_color o) in
  match m with
  | HSkip => x = Ok true /\ f = meta_seen ci
  | HFrame =>
    (x = Err (DIo InvalidData) /\ length out <= im_pixels i) \/
    (x = Ok true /\ im_pixels i <= length out /\ f = seen o g ci out)
  | HInto buf =>
    f = meta_seen ci /\
    ((x = Err (DIo InvalidData) /\ length out <= im_pixels i) \/
     (x = Ok true /\ im_pixels i <= length out /\ b = over (im_picture i out) buf ++ skipn (frame_bytes o i) buf))
  | HPieces bufs =>
    f = meta_seen ci /\
    ((x = Err (DIo InvalidData) /\
      exists pre cur post b1 b2, bufs = pre ++ cur :: post /\ b = b1 ++ b2 /\
        length (concat pre) <= pb * length out <= length (concat pre) + length cur /\
        b1 = over (firstn (length (concat pre) / pb) out) (concat pre)) \/
     (x = Ok true /\ length (concat bufs) <= pb * length out /\
      b = over (firstn (length (concat bufs) / pb) out) (concat bufs)))
  end.

(** Requests for image [i] that nothing else stands in the way of. *)
Definition feasible (m : how) (i : img) : Prop :=
  match m with
  | HSkip => True
  | HFrame => 0 < im_pixels i /\ (N.of_nat (frame_bytes o i) <= umax / 2)%N /\ fits (o_limit o) (N.of_nat (frame_bytes o i))
  | HInto buf => 0 < im_pixels i /\ frame_bytes o i <= length buf /\ (len buf <= umax)%N
  | HPieces bufs => Forall (fun b => exists n, 0 < n /\ length b = px_bytes (o_color o) * n) bufs
  end.
End C.
