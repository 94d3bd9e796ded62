(** Property C68: what [last_ext], [version], [width] and [height] of [StreamingDecoder] show between the calls of [update],
    on arbitrary input. *)
From Verif Require Import Base Common Lzw Encoder Stream LzwRef SpecStream SpecExt ExtView Refuted.
Open Scope N_scope.

Theorem C68_new : forall L o, last_ext L (sd_new L o) = (0, [], true).
Proof. reflexivity. Qed.
Print Assumptions C68_new.

(** ** [last_ext] *)
Theorem C68_ext : forall L, lzw_safe L -> forall o s buf tl evs ob s' ob' n d,
  driven L o s (buf ++ tl) evs -> update L s buf ob = (s', ob', Ok (n, d)) ->
  ext_after (last_ext L s) d (firstn n buf) (last_ext L s').
Proof. exact ext_view. Qed.
Print Assumptions C68_ext.

(** ** [version], [width], [height] *)
Theorem C68_header : forall L, lzw_safe L -> forall o file s taken, reading L o file s taken ->
  header_view taken (sd_version L s) (sd_width L s) (sd_height L s).
Proof. exact header_seen. Qed.
Print Assumptions C68_header.

(** ** Cases. The calls of a driver that offers at most [k] bytes at a time, with what [last_ext] shows after each of them. *)
Fixpoint watch (fuel k : nat) (s : sd lzw_ref) (rest : list N) : list (decoded * (N * list N * bool)) :=
  match fuel with
  | O => []
  | S m =>
    match update lzw_ref s (firstn k rest) (OSlice (repeat 0 9)) with
    | (s', _, Ok (_, DBlockStart BkTrailer)) => []
    | (s', _, Ok (n, d)) => (d, last_ext lzw_ref s') :: watch m k s' (skipn n rest)
    | _ => []
    end
  end.
Definition ext_events (l : list (decoded * (N * list N * bool))) :=
  filter (fun x => match fst x with DBlockStart BkExtension | DSubBlockFinished _ | DBlockFinished _ => true | _ => false end) l.
(** A comment of two data blocks. *)
Definition comment_file : list N := head44 ++ [0x21; 0xFE; 2; 65; 66; 1; 67; 0; 0x3B].
Example C68_ext_case : forall k, In k [1%nat; 2%nat; 100%nat] ->
  ext_events (watch 60 k (sd_new lzw_ref options_new) comment_file) =
  [(DBlockStart BkExtension, (0xFE, [], true));
   (DSubBlockFinished 0xFE, (0xFE, [2; 65; 66], false));
   (DBlockFinished 0xFE, (0xFE, [2; 65; 66; 67], true))].
Proof. intros k [<-|[<-|[<-|[]]]]; vm_compute; reflexivity. Qed.

Definition hdr_file : list N := [0x47; 0x49; 0x46; 0x38; 0x39; 0x61; 44; 1; 7; 0; 0; 0; 0; 0x3B].
Definition step_of (s : sd lzw_ref) (buf : list N) := fst (fst (update lzw_ref s buf ONone)).
Lemma reading_step file s taken buf tl n d : reading lzw_ref options_new file s taken -> file = taken ++ buf ++ tl ->
  snd (update lzw_ref s buf ONone) = Ok (n, d) -> reading lzw_ref options_new file (step_of s buf) (taken ++ firstn n buf).
Proof.
  intros Hr E H. apply (rd_more _ _ _ s taken buf tl ONone _ (snd (fst (update lzw_ref s buf ONone))) n d Hr E).
  unfold step_of. destruct (update lzw_ref s buf ONone) as [[s' ob'] r]. cbn [fst snd] in *. now subst r.
Qed.
Example C68_header_case : let s1 := step_of (sd_new lzw_ref options_new) (firstn 5 hdr_file) in
  let s2 := step_of s1 (firstn 3 (skipn 5 hdr_file)) in let s3 := step_of s2 (skipn 8 hdr_file) in
  reading lzw_ref options_new hdr_file s1 (firstn 5 hdr_file) /\
  reading lzw_ref options_new hdr_file s2 (firstn 8 hdr_file) /\
  reading lzw_ref options_new hdr_file s3 (firstn 13 hdr_file) /\
  (sd_version _ s1, sd_version _ s2, sd_width _ s2, sd_version _ s3, sd_width _ s3, sd_height _ s3) = (V87a, V89a, 0, V89a, 300, 7).
Proof.
  intros s1 s2 s3.
  assert (R1 : reading lzw_ref options_new hdr_file s1 ([] ++ firstn 5 (firstn 5 hdr_file))).
  { eapply reading_step; [constructor|symmetry; apply (firstn_skipn 5)|]. vm_compute. reflexivity. }
  assert (R2 : reading lzw_ref options_new hdr_file s2 (firstn 5 hdr_file ++ firstn 3 (firstn 3 (skipn 5 hdr_file)))).
  { eapply reading_step; [exact R1|instantiate (1 := skipn 8 hdr_file); reflexivity|]. vm_compute. reflexivity. }
  assert (R3 : reading lzw_ref options_new hdr_file s3 (firstn 8 hdr_file ++ firstn 5 (skipn 8 hdr_file))).
  { eapply reading_step; [exact R2|instantiate (1 := []); reflexivity|]. vm_compute. reflexivity. }
  split; [exact R1|]. split; [exact R2|]. split; [exact R3|]. vm_compute. reflexivity.
Qed.

(** ** The documentation of [Decoded]: "A label of [0] is used when the sub block does not belong to an extension". The data
    of an unknown block after an extension is reported under the label of that extension, and added to its data. *)
Definition unknown_opts : options := mk_opts (o_limit options_new) (o_color options_new) false false false true.
Theorem C68_label_refuted : exists file,
  ext_events (watch 60 100 (sd_new lzw_ref unknown_opts) file) =
  [(DBlockStart BkExtension, (0xFE, [], true)); (DBlockFinished 0xFE, (0xFE, [1; 65], true));
   (DBlockFinished 0xFE, (0xFE, [1; 65; 66], true))].
Proof. exists (head44 ++ [0x21; 0xFE; 1; 65; 0; (* unknown block *) 0x77; 1; 66; 0; 0x3B]). vm_compute. reflexivity. Qed.
Print Assumptions C68_label_refuted.
