(** Property C65: a caller who changes the frame under construction through [current_frame_mut] changes nothing else. *)
From Verif Require Import Base Common Lzw Encoder Stream LzwRef SpecMut FrameMut Refuted.
Open Scope N_scope.

(** ** The results of all calls of [update] are those of a caller who keeps their hands off *)
Theorem C65_events : forall L s ops s1 rs, run_mops L s ops = Some (s1, rs) ->
  exists s2, run_mops L s (hands_off ops) = Some (s2, rs) /\ alike s1 s2.
Proof. exact run_events. Qed.
Print Assumptions C65_events.

(** ** With the end of the image the change is forgotten *)
Theorem C65_forgotten : forall L ops buf ob s s1 rs ob1 n,
  run_mops L s (ops ++ [MFeed buf ob]) = Some (s1, rs ++ [(ob1, Ok (n, DDataEnd))]) ->
  run_mops L s (hands_off (ops ++ [MFeed buf ob])) = Some (s1, rs ++ [(ob1, Ok (n, DDataEnd))]).
Proof. exact run_forgets. Qed.
Print Assumptions C65_forgotten.

(** ** [current_frame_mut] panics exactly if there is no frame under construction in the untouched decoder *)
Theorem C65_panics : forall L s ops, run_mops L s ops = None <->
  exists ops1 g cap ops2 s1 rs, ops = ops1 ++ MChange g cap :: ops2 /\
    run_mops L s (hands_off ops1) = Some (s1, rs) /\ sd_current L s1 = None.
Proof. exact run_panics. Qed.
Print Assumptions C65_panics.

(** ** A case: a control extension and two images; the caller replaces the frame whenever there is one *)
Definition mut_file : list N :=
  head44 ++ [0x21; 0xF9; 4; 5; 3; 0; 1; 0] ++ img_desc 0 0 2 1 0 ++ data_of 2 [1; 0] ++
  img_desc 1 1 1 1 0x80 ++ [9; 8; 7; 6; 5; 4] ++ data_of 2 [1] ++ [0x3B].
Definition meddle (f : frame) : frame :=
  mk_frame 77 DPrevious (Some 200) true 60000 60000 0 0 true (Some [1; 2; 3; 4]) [5].
(** The calls of a driver that feeds the rest of the file until the trailer and meddles between any two of them. *)
Fixpoint script (fuel : nat) (s : sd lzw_ref) (rest : list N) : list mop :=
  match fuel with
  | O => []
  | S k =>
    let feed := MFeed rest (OSlice (repeat 0 9)) in
    let go s pre := match update lzw_ref s rest (OSlice (repeat 0 9)) with
                    | (_, _, Ok (_, DBlockStart BkTrailer)) => pre ++ [feed]
                    | (s', _, Ok (n, _)) => pre ++ feed :: script k s' (skipn n rest)
                    | _ => pre ++ [feed]
                    end in
    match sd_current _ s with
    | Some f => go (set_current _ s (Some (meddle f)) 5%nat) [MChange meddle 5%nat]
    | None => go s []
    end
  end.
Definition mut_script : list mop := script 60 (sd_new lzw_ref options_new) mut_file.
Definition events_of (x : option (sd lzw_ref * list (obuf * dres (nat * decoded)))) : list decoded :=
  match x with
  | Some (_, rs) => flat_map (fun p => match snd p with Ok (_, d) => [d] | _ => [] end) rs
  | None => []
  end.
Example C65_case :
  (length (hands_off mut_script) <? length mut_script)%nat = true /\
  match run_mops lzw_ref (sd_new lzw_ref options_new) mut_script with Some _ => true | None => false end = true /\
  filter (fun d => match d with DLzwDataCopied _ | DBytesDecoded _ | DDataEnd => true | _ => false end)
    (events_of (run_mops lzw_ref (sd_new lzw_ref options_new) mut_script)) =
    [DBytesDecoded 2; DDataEnd; DBytesDecoded 1; DDataEnd].
Proof.
  split; [vm_compute; reflexivity|]. split; [vm_compute; reflexivity|]. vm_compute. reflexivity.
Qed.
