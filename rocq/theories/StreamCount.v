(** How many calls of the streaming decoder a file takes (C49). *)
From Verif Require Import Base Common Lzw Stream StreamInv Steps StepsRev ReaderInv DecoderSafe SpecStream StreamProps.
Open Scope N_scope.

(** [fed L o file s rest k]: a new decoder was given [file] in [k] non-empty pieces, every call having
    returned normally and none having had a slice to write pixels to; [rest] is not consumed yet. *)
Inductive fed (L : lzw_codec) (o : options) (file : list N) : sd L -> list N -> nat -> Prop :=
| fd_new : fed L o file (sd_new L o) file 0
| fd_ok s buf tl ob s' ob' n d k :
    fed L o file s (buf ++ tl) k -> buf <> [] -> (forall pixels, ob <> OSlice pixels) ->
    update L s buf ob = (s', ob', Ok (n, d)) -> fed L o file s' (skipn n buf ++ tl) (S k).

Section SC.
Variable L : lzw_codec.
Variable safe : lzw_safe L.
Notation sd := (sd L).

Lemma nsteps_meas s buf ob s' buf' ob' : nsteps L s buf ob s' buf' ob' -> pre L s buf ->
  (meas L s' buf' <= meas L s buf)%nat /\ (buf' = buf \/ (meas L s' buf' < meas L s buf)%nat) /\ same_shape ob ob'.
Proof.
  induction 1 as [|s buf ob s1 ob1 n s' buf' ob' Hb He Hn IH]; intros Hp.
  - split; [lia|]. split; [now left|apply same_shape_refl].
  - destruct Hp as (H1 & H2 & H3).
    pose proof (next_state_good L safe s buf ob H1 H2 Hb) as Hg. rewrite He in Hg.
    destruct Hg as (_ & Hsh & Hg1 & Hg2 & Hg3 & Hg4 & Hg5 & _).
    specialize (Hg5 H3 (or_intror eq_refl)).
    destruct IH as (I1 & _ & I3).
    { split; [assumption|split; [assumption|]]. intros E. destruct (Hg4 E); [congruence|discriminate]. }
    split; [lia|]. split; [right; lia|]. eapply same_shape_trans; eassumption.
Qed.

(** Every call makes progress, and never takes more than it was given. *)
Lemma update_meas s buf ob s' ob' n d : pre L s buf -> buf <> [] ->
  update L s buf ob = (s', ob', Ok (n, d)) ->
  (n <= length buf)%nat /\ (is_slice ob = false -> (meas L s' (skipn n buf) < meas L s buf)%nat).
Proof.
  intros Hpre Hb Hu.
  destruct (update_flat L safe _ _ _ _ _ _ Hpre Hu) as (s1 & buf1 & ob1 & Hns & Hpre1 & _ & Hc).
  destruct (nsteps_suffix L safe _ _ _ _ _ _ Hns Hpre) as (k & Hk & Hkl).
  destruct (nsteps_meas _ _ _ _ _ _ Hns Hpre) as (M1 & M2 & Hsh).
  destruct Hc as [(Hnil & -> & -> & E)|(Hb1 & r0 & Hn0 & [(n0 & d0 & -> & Hd & E)|(e & _ & E)])]; [| |discriminate E].
  - injection E as -> ->. split; [lia|]. intros _. rewrite skipn_all. rewrite Hnil in M2.
    destruct M2 as [M2|M2]; [congruence|exact M2].
  - injection E as -> ->. split; [lia|]. intros Hs.
    destruct Hpre1 as (W1 & Z1 & T1).
    pose proof (next_state_good L safe _ _ ob1 W1 Z1 Hb1) as Hg. rewrite Hn0 in Hg.
    destruct Hg as (_ & _ & Gn & _ & _ & _ & Gm & _).
    rewrite (same_shape_slice _ _ Hsh) in Gm. specialize (Gm T1 (or_introl Hs)).
    rewrite Hk in *. rewrite skipn_skipn_suffix by assumption. lia.
Qed.

Lemma fed_driven o file s rest k : fed L o file s rest k -> exists evs, driven L o s rest evs.
Proof.
  induction 1 as [|s buf tl ob s' ob' n d k _ (evs & IH) _ _ Hu].
  - exists []. apply dr_new.
  - exists (evs ++ [d]). eapply dr_ok; eassumption.
Qed.

Lemma fed_meas o file s rest k : fed L o file s rest k -> (k + meas L s rest <= 4 * length file)%nat.
Proof.
  induction 1 as [|s buf tl ob s' ob' n d k Hf IH Hb Ho Hu].
  - unfold meas, erank. cbn. lia.
  - destruct (fed_driven _ _ _ _ _ Hf) as (evs & Hdr).
    destruct (driven_drv L safe _ _ _ _ Hdr) as (_ & Hw & Hz & p & Hr & Hp).
    assert (Ht : sd_state L s <> Trailer).
    { intros Ht. pose proof (trailer_hangs L s buf ob (update_fuel buf) (length buf) Ht Hb Hw : snd (update L s buf ob) = Hang) as Hh.
      rewrite Hu in Hh. discriminate Hh. }
    destruct (update_meas s buf ob s' ob' n d (conj Hw (conj (zero_piece L _ _ _ Hz Hb) Ht)) Hb Hu) as [Hn Hm].
    assert (Hs : is_slice ob = false) by (destruct ob; [now destruct (Ho s0)|reflexivity..]).
    specialize (Hm Hs). pose proof (meas_rest L s s' n buf tl Hn Hm). lia.
Qed.

Theorem calls_bounded o file s rest k : fed L o file s rest k -> (k <= 4 * length file)%nat.
Proof. intros H. pose proof (fed_meas _ _ _ _ _ H). lia. Qed.

Theorem update_takes o s buf tl evs ob s' ob' n d : driven L o s (buf ++ tl) evs ->
  update L s buf ob = (s', ob', Ok (n, d)) -> (n <= length buf)%nat /\ (d = DNothing -> n = length buf).
Proof.
  intros Hdr Hu. destruct buf as [|b buf]; [cbn in Hu; injection Hu as _ _ <- _; split; reflexivity|].
  assert (Hb : b :: buf <> []) by discriminate. remember (b :: buf) as bf eqn:Eb. clear Eb.
  destruct (driven_drv L safe _ _ _ _ Hdr) as (_ & Hw & Hz & p & Hr & Hp).
  assert (Ht : sd_state L s <> Trailer).
  { intros Ht. pose proof (trailer_hangs L s bf ob (update_fuel bf) (length bf) Ht Hb Hw : snd (update L s bf ob) = Hang) as Hh.
    rewrite Hu in Hh. discriminate Hh. }
  pose proof (conj Hw (conj (zero_piece L _ _ _ Hz Hb) Ht) : pre L s bf) as Hpre.
  split; [apply (update_meas s bf ob s' ob' n d Hpre Hb Hu)|]. intros ->.
  destruct (update_flat L safe _ _ _ _ _ _ Hpre Hu) as (s1 & buf1 & ob1 & _ & _ & _ & Hc).
  destruct Hc as [(_ & _ & _ & E)|(_ & r0 & _ & [(n0 & d0 & _ & Hd & E)|(e & _ & E)])]; [congruence..|discriminate E].
Qed.
End SC.
