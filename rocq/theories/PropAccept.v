(** Property C62: whatever the readers accept is a GIF file. *)
From Verif Require Import Base Common Lzw Encoder Stream Converter Reader LzwRef LzwRefSpec StreamInv ConvInv DecoderSafe DocAll
  Relax SpecGif SpecPixels SpecCount Validate Refuted PropEnc PropDec PropRecolor SpecAccept AcceptDec.
Open Scope N_scope.

(** The streaming decoder, fed in any pieces and with any destinations: once it reports the trailer, the bytes are a file. *)
Theorem C62_stream : forall L, lzw_safe L -> forall o file s rest evs, bytes_ok file ->
  taken L o file s rest evs -> In (DBlockStart BkTrailer) evs ->
  exists g tl, file = ser_gif g tl /\ file_acc false o g tl.
Proof. exact stream_accepts. Qed.
Print Assumptions C62_stream.

(** [version], [width] and [height] are those of the file from the first event on. *)
Theorem C62_header : forall L, lzw_safe L -> forall o file s rest evs d, bytes_ok file ->
  taken L o file s rest evs -> In d evs -> d <> DNothing -> head_told L file s.
Proof. exact told_head_bytes. Qed.
Print Assumptions C62_header.

(** [Decoder]: after any calls without errors of which one has said that there are no more frames. *)
Theorem C62_calls : forall L, lzw_safe L -> forall umax, 2 ^ 32 - 1 <= umax -> forall src o d os d' ys,
  src_ok src -> limit_ok umax (o_limit o) -> Forall (op_ok umax) os ->
  read_info L src o = Ok d -> run_dops L umax d os = (d', ys) -> Forall went_well ys -> In (OutBool (Ok false)) ys ->
  exists g tl, concat (map ev_bytes src) = ser_gif g tl /\ file_acc true o g tl.
Proof. exact calls_accept. Qed.
Print Assumptions C62_calls.

(** The usual loops: reading all frames, and skipping over all of them. *)
Theorem C62_read : forall L, lzw_safe L -> forall umax, 2 ^ 32 - 1 <= umax -> forall src o d n d' fs,
  src_ok src -> limit_ok umax (o_limit o) -> read_info L src o = Ok d -> read_all L umax n d = (d', fs, Ok false) ->
  exists g tl, concat (map ev_bytes src) = ser_gif g tl /\ file_acc true o g tl.
Proof. exact read_accepts. Qed.
Print Assumptions C62_read.
Theorem C62_scan : forall L, lzw_safe L -> forall umax, 2 ^ 32 - 1 <= umax -> forall src o d n d' fs,
  src_ok src -> read_info L src o = Ok d -> scan_all L n d = (d', fs, Ok false) ->
  exists g tl, concat (map ev_bytes src) = ser_gif g tl /\ file_acc true o g tl.
Proof. exact scan_accepts. Qed.
Print Assumptions C62_scan.

(** Where no use is made of the liberties of [SpecAccept], the file is well-formed in the sense of the other theorems. *)
Theorem C62_regular : forall o g, gif_acc true o g -> regular g -> gif_ok o g.
Proof. exact acc_regular_ok. Qed.
Print Assumptions C62_regular.

(** ** Cases *)
(** The streaming decoder, byte by byte. *)
Fixpoint feedl (fuel : nat) (s : sd lzw_ref) (rest : list N) (evs : list decoded) : sd lzw_ref * list N * list decoded :=
  match fuel, rest with
  | S fuel', b :: t =>
    match update lzw_ref s [b] ONone with
    | (s', _, Ok (n, d)) => feedl fuel' s' (skipn n [b] ++ t) (evs ++ [d])
    | _ => (s, rest, evs)
    end
  | _, _ => (s, rest, evs)
  end.
Lemma feedl_taken o file fuel : forall s rest evs, taken lzw_ref o file s rest evs ->
  let '(s', rest', evs') := feedl fuel s rest evs in taken lzw_ref o file s' rest' evs'.
Proof.
  induction fuel as [|fuel IH]; intros s rest evs H; [exact H|]. destruct rest as [|b t]; [exact H|]. cbn [feedl].
  destruct (update lzw_ref s [b] ONone) as [[s' ob'] r] eqn:E. destruct r as [[n d]|e| | ]; [|exact H..].
  apply IH. exact (tk_ok lzw_ref o file s [b] t ONone s' ob' n d evs H E).
Qed.
Definition is_trailer (d : decoded) : bool := match d with DBlockStart BkTrailer => true | _ => false end.
Definition ax_file : list N := ser_gif dx_gif dx_tail.
Definition ax_fed (fuel : nat) := feedl fuel (sd_new lzw_ref options_new) ax_file [].
Lemma ax_taken fuel : taken lzw_ref options_new ax_file (fst (fst (ax_fed fuel))) (snd (fst (ax_fed fuel))) (snd (ax_fed fuel)).
Proof.
  unfold ax_fed. pose proof (feedl_taken options_new ax_file fuel _ _ _ (tk_new lzw_ref options_new ax_file)) as T.
  destruct (feedl fuel (sd_new lzw_ref options_new) ax_file []) as [[s rest] evs]. exact T.
Qed.
Example C62_stream_case :
  taken lzw_ref options_new ax_file (fst (fst (ax_fed 200))) (snd (fst (ax_fed 200))) (snd (ax_fed 200)) /\
  existsb is_trailer (snd (ax_fed 200)) = true /\ sd_version lzw_ref (fst (fst (ax_fed 200))) = V89a /\
  sd_width lzw_ref (fst (fst (ax_fed 200))) = 4 /\ sd_height lzw_ref (fst (fst (ax_fed 200))) = 4.
Proof.
  split; [exact (ax_taken 200)|]. split; [vm_compute; reflexivity|]. split; [vm_compute; reflexivity|].
  split; vm_compute; reflexivity.
Qed.

(** [Decoder] on the example file: one frame read, the rest skipped, then the end. *)
Example C62_calls_case : exists d, read_info lzw_ref dx_src options_new = Ok d /\
  snd (run_dops lzw_ref umax64 d [OpFrame; OpInfo; OpInfo]) = [OutBool (Ok true); OutBool (Ok true); OutBool (Ok false)] /\
  exists g tl, concat (map ev_bytes dx_src) = ser_gif g tl /\ file_acc true options_new g tl.
Proof.
  destruct (rx_opened (read_info lzw_ref dx_src options_new)
    (fun d => snd (run_dops lzw_ref umax64 d [OpFrame; OpInfo; OpInfo]) = [OutBool (Ok true); OutBool (Ok true); OutBool (Ok false)]))
    as (d & E & K); [vm_compute; reflexivity|].
  exists d. split; [exact E|]. split; [exact K|].
  destruct (run_dops lzw_ref umax64 d [OpFrame; OpInfo; OpInfo]) as [d' ys] eqn:R. cbn [snd] in K. subst ys.
  assert (Hops : Forall (op_ok umax64) [OpFrame; OpInfo; OpInfo]) by (constructor; [exact I|constructor; [exact I|constructor; [exact I|constructor]]]).
  assert (Hl : limit_ok umax64 (o_limit options_new)) by (left; vm_compute; discriminate).
  assert (Hs : src_ok dx_src) by exact (proj1 dx_delivers).
  refine (C62_calls lzw_ref rx_safe umax64 dx_umax dx_src options_new d [OpFrame; OpInfo; OpInfo] d' _ Hs Hl Hops E R _ _).
  - constructor; [eexists; reflexivity|constructor; [eexists; reflexivity|constructor; [eexists; reflexivity|constructor]]].
  - right. right. left. reflexivity.
Qed.

(** A file that makes use of the liberties: a comment and an image whose data begin with an empty block. It is taken, with the
    frame that has no pixels, although it is not well-formed. *)
Definition lx_gif : gif :=
  mk_gif true 4 4 0x80 1 0 [1; 2; 3; 4; 5; 6] [BExt 0xFE [[]; [105]]; BImg (mk_img 0 0 0 0 0 [] 2 [[]; [12; 10]])].
Definition lx_src : list revent := bytewise (ser_gif lx_gif []).
Example C62_liberties_case : gif_acc true options_new lx_gif /\ ~ gif_ok options_new lx_gif /\
  exists d d', read_info lzw_ref lx_src options_new = Ok d /\ scan_all lzw_ref 5 d = d' /\ length (snd (fst d')) = 1%nat /\ snd d' = Ok false.
Proof.
  split; [|split].
  - split; [|split].
    + repeat split; try reflexivity. crush_rng.
    + constructor; [|constructor; [|constructor]].
      * split; [right; right; left; reflexivity|]. split; [|split; [discriminate|intros _; vm_compute; discriminate]].
        split; [discriminate|]. split; [|constructor; [discriminate|constructor]].
        constructor; [split; [cbn; lia|constructor]|constructor; [split; [cbn; lia|crush_rng]|constructor]].
      * split.
        -- split; [repeat split; try reflexivity; discriminate|]. split; [repeat split; constructor|].
           split; [split; discriminate|intros _; right; reflexivity].
        -- split; [discriminate|]. split; [|constructor; [discriminate|constructor]].
           constructor; [split; [cbn; lia|constructor]|constructor; [split; [cbn; lia|crush_rng]|constructor]].
    + exact I.
  - intros (_ & _ & _ & _ & _ & _ & _ & H & _). cbn [g_blocks lx_gif] in H.
    apply Forall_cons_iff in H as [(_ & (_ & A) & _) _]. apply Forall_cons_iff in A as [[B _] _]. cbn in B. lia.
  - destruct (rx_opened (read_info lzw_ref lx_src options_new)
      (fun d => length (snd (fst (scan_all lzw_ref 5 d))) = 1%nat /\ snd (scan_all lzw_ref 5 d) = Ok false))
      as (d & E & K); [vm_compute; split; reflexivity|].
    exists d, (scan_all lzw_ref 5 d). split; [exact E|]. split; [reflexivity|exact K].
Qed.
(** A file without blocks is taken only when bytes follow its trailer. *)
Definition bx_gif : gif := mk_gif false 4 4 0 1 0 [] [].
Example C62_empty_case :
  (exists d, read_info lzw_ref (bytewise (ser_gif bx_gif [65])) options_new = Ok d /\ snd (scan_all lzw_ref 5 d) = Ok false) /\
  read_info lzw_ref (bytewise (ser_gif bx_gif [])) options_new = Err (DIo UnexpectedEof).
Proof.
  split; [|vm_compute; reflexivity].
  destruct (rx_opened (read_info lzw_ref (bytewise (ser_gif bx_gif [65])) options_new)
    (fun d => snd (scan_all lzw_ref 5 d) = Ok false)) as (d & E & K); [vm_compute; reflexivity|].
  exists d. split; [exact E|exact K].
Qed.
