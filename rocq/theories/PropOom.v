(** Property C69: reading when memory may run out. The readers reserve memory for data of the file with [try_reserve]; the
    model OomModel.v lets every such reservation fail, in any pattern. *)
From Verif Require Import Base Common Lzw Encoder Stream Converter Reader LzwRef LzwRefSpec Validate ConvInv DecoderSafe OomModel SpecOom OomSim OomSafe OomNeed Refuted.
Open Scope N_scope.

(** ** A failing reservation is reported at once, as the I/O error [OutOfMemory]; without one nothing differs. *)
Theorem C69_update : forall L mem s buf ob mem' s' ob' x, update_o L mem s buf ob = (mem', (s', ob', x)) ->
  (spared mem mem' /\ update L s buf ob = (s', ob', x)) \/ (ran_out mem mem' /\ x = oom).
Proof. exact update_spared. Qed.
Print Assumptions C69_update.

Theorem C69_open : forall L mem src o mem' x, read_info_o L mem src o = (mem', x) ->
  (spared mem mem' /\ read_info L src o = x) \/ (ran_out mem mem' /\ x = oom).
Proof. exact read_info_spared. Qed.
Print Assumptions C69_open.

Theorem C69_call : forall L umax mem d op mem' d' y, run_dop_o L umax mem d op = (mem', (d', y)) ->
  (spared mem mem' /\ run_dop L umax d op = (d', y)) \/ (ran_out mem mem' /\ oom_out y).
Proof. exact run_dop_sim. Qed.
Print Assumptions C69_call.

Theorem C69_iter : forall L umax mem it mem' it' y, iter_next_o L umax mem it = (mem', (it', y)) ->
  (spared mem mem' /\ iter_next L umax it = (it', y)) \/
  (ran_out mem mem' /\ y = IErr (DIo OutOfMemory) /\ it_ended L it' = true).
Proof. exact iter_next_sim. Qed.
Print Assumptions C69_iter.

(** ** No panic and no endless loop, whatever reservations fail and whatever the caller does afterwards. *)
Theorem C69_streaming_returns : forall L, lzw_safe L -> forall o s buf tl evs ob mem,
  driven_o L o s (buf ++ tl) evs -> ~ In (DBlockStart BkTrailer) evs -> returns (snd (snd (update_o L mem s buf ob))).
Proof. exact streaming_oom_returns. Qed.
Print Assumptions C69_streaming_returns.

Theorem C69_decoder_returns : forall L, lzw_safe L -> forall umax, 2 ^ 32 - 1 <= umax ->
  forall o, limit_ok umax (o_limit o) -> forall mem src ops, src_ok src -> Forall (op_ok umax) ops ->
  returns (snd (read_info_o L mem src o)) /\
  forall mem1 d, read_info_o L mem src o = (mem1, Ok d) -> Forall out_returns (snd (snd (run_dops_o L umax mem1 d ops))).
Proof. exact decoder_oom_returns. Qed.
Print Assumptions C69_decoder_returns.

(** ** Data of the file are stored in reserved memory only. A caller who never gets any sees no colours and at most the
    byte that opens an extension, and an undecoded image leaves their vector as it was. *)
Theorem C69_starved : forall L o s evs, starved L o s evs ->
  (length (snd (fst (last_ext L s))) <= 1)%nat /\
  (forall p, In (DGlobalPalette p) evs -> p = []) /\
  (forall f p, sd_current L s = Some f -> f_palette f = Some p -> p = []) /\
  (forall mem buf v mem' s' ob' x, o_skip_frame_decoding o = true ->
     update_o L (false :: mem) s buf (OVec v) = (mem', (s', ob', x)) -> ob' = OVec v).
Proof. exact starved_stores_nothing. Qed.
Print Assumptions C69_starved.

(** ** Cases: a file with a global table, a comment and an image with a local table; one reservation each. *)
Definition oom_file : list N :=
  head44 ++ [0x21; 0xFE; 2; 65; 66; 0] ++ img_desc 0 0 2 1 0x80 ++ [10; 11; 12; 13; 14; 15] ++ data_of 2 [1; 0] ++ [0x3B].
(** What a caller sees who opens the file, reads a frame and, whatever happens, reads again. *)
Definition seen (mem : list bool) (src : list revent) (o : options) : option (dres (list dout * (list N * option (list N)))) :=
  match read_info_o lzw_ref mem src o with
  | (mem1, Ok d) =>
    let '(_, (d1, ys)) := run_dops_o lzw_ref umax64 mem1 d [OpFrame; OpFrame] in
    Some (Ok (ys, (f_buffer (dc_cur _ d1), f_palette (dc_cur _ d1))))
  | (_, Err e) => Some (Err e)
  | _ => None
  end.
Definition whole : list revent := [RChunk oom_file].
Definition frame_palette : list N := [10; 11; 12; 13; 14; 15].
Example C69_case_global : seen [false] whole options_new = Some oom.
Proof. vm_compute. reflexivity. Qed.
Example C69_case_comment : seen [true; false] whole options_new = Some oom.
Proof. vm_compute. reflexivity. Qed.
Example C69_case_local : exists rest, seen [true; true; false] whole options_new = Some (Ok (OutBool oom :: rest, ([1; 0], Some frame_palette))).
Proof. eexists. vm_compute. reflexivity. Qed.
Example C69_case_spared : exists rest, seen [true; true; true] whole options_new = Some (Ok (OutBool (Ok true) :: rest, ([1; 0], Some frame_palette))).
Proof. eexists. vm_compute. reflexivity. Qed.
(** Without decoding, the image data are two more reservations: one for the buffer and one for each piece copied. *)
Example C69_case_skip : map (fun mem => match seen mem whole raw_opts with Some (Ok (OutBool r :: _, (b, _))) => Some (r, b) | _ => None end)
    [[true; true; false]; [true; true; true; false]; [true; true; true; true; false]; [true; true; true; true; true]] =
  [Some (oom, [2; 12; 10]); Some (oom, []); Some (oom, []); Some (Ok true, [2; 12; 10])].
Proof. vm_compute. reflexivity. Qed.
(** A caller without memory gets past the header of this file, which has no global table, and past the introducer of an extension. *)
Definition starving : list N := GIF89a ++ [4; 0; 4; 0; 0; 0; 0; 0x21; 0xFE; 2; 65; 66; 0].
Fixpoint starve (fuel : nat) (s : sd lzw_ref) (evs : list decoded) (buf : list N) : sd lzw_ref * list decoded * list N :=
  match fuel with
  | O => (s, evs, buf)
  | S fuel => match update_o lzw_ref [false] s buf ONone with
              | (_, (s', _, Ok (n, d))) => starve fuel s' (evs ++ [d]) (skipn n buf)
              | (_, (s', _, Err _)) => (s', evs, buf)
              | _ => (s, evs, buf)
              end
  end.
Lemma starve_starved fuel : forall s evs buf, starved lzw_ref options_new s evs ->
  let '(s', evs', _) := starve fuel s evs buf in starved lzw_ref options_new s' evs'.
Proof.
  induction fuel as [|fuel IH]; intros s evs buf H; cbn [starve]; [exact H|].
  destruct (update_o lzw_ref [false] s buf ONone) as [mem' [[s' ob'] x]] eqn:E. destruct x as [[n d]|e| | ]; try exact H.
  - apply IH. exact (sv_ok _ _ _ _ _ _ _ _ _ _ _ _ H E).
  - exact (sv_err _ _ _ _ _ _ _ _ _ _ _ H E).
Qed.
Example C69_case_starved : exists s evs, starved lzw_ref options_new s evs /\ evs <> [] /\ last_ext lzw_ref s = (0xFE, [2], true).
Proof.
  pose proof (starve_starved 20 (sd_new lzw_ref options_new) [] starving (sv_new _ _)) as H.
  destruct (starve 20 (sd_new lzw_ref options_new) [] starving) as [[s evs] b] eqn:E. exists s, evs. split; [exact H|].
  assert (Ev : length (snd (fst (starve 20 (sd_new lzw_ref options_new) [] starving))) = 3%nat) by (vm_compute; reflexivity).
  assert (El : last_ext lzw_ref (fst (fst (starve 20 (sd_new lzw_ref options_new) [] starving))) = (0xFE, [2], true)) by (vm_compute; reflexivity).
  rewrite E in Ev, El. cbn [fst snd] in Ev, El. split; [destruct evs; [discriminate Ev|discriminate]|exact El].
Qed.
Example C69_case_hypotheses : lzw_safe lzw_ref /\ limit_ok umax64 (o_limit options_new) /\ src_ok whole /\ Forall (op_ok umax64) [OpFrame; OpFrame].
Proof.
  split; [exact (lz_is_safe _ lzw_ref_spec)|]. split; [left; vm_compute; discriminate|]. split; [|repeat constructor].
  constructor; [|constructor]. apply Forall_forall. intros b Hb. apply N.ltb_lt.
  revert b Hb. apply forallb_forall. vm_compute. reflexivity.
Qed.

(** ** Reading again is not safe: the image descriptor that was being completed when memory ran out is lost. The same caller
    as above gets the frame if the file comes in one piece, and a format error if it comes byte by byte. *)
Theorem C69_retry_refuted : exists file mem y1 y2,
  seen mem [RChunk file] options_new = Some (Ok ([OutBool oom; OutBool (Ok true)], y1)) /\
  seen mem (map (fun b => RChunk [b]) file) options_new =
    Some (Ok ([OutBool oom; OutBool (Err (DFormat InvalidMinimalCodeSize))], y2)).
Proof.
  exists (head44 ++ img_desc 0 0 2 1 0x80 ++ frame_palette ++ data_of 2 [1; 0] ++ [0x3B]), [true; false].
  eexists. eexists. split; vm_compute; reflexivity.
Qed.
Print Assumptions C69_retry_refuted.
