(** Property C73: the error values; property C74: [write_le]. *)
From Coq Require Import String.
From Verif Require Import Base Common Lzw Encoder EncLin ErrorText WriteLe Refuted.
Open Scope N_scope.

(** An error of this crate shows the text of the error it wraps. *)
Definition own (v : evalue) : Prop := match v with VIo _ => False | _ => True end.
Theorem C73_text : forall io v v', own v -> source io v = Some v' -> display io v = display io v'.
Proof. intros io [[m|k]|m|s|[m|k]|m|k] v' Ho H; try destruct Ho; injection H as <- || discriminate H; reflexivity. Qed.
Print Assumptions C73_text.

(** [DecodingError] and [EncodingError] always have a source: the reason, or the reader's or writer's error. *)
Theorem C73_source : forall io, (forall m, source io (VDec (DFormat m)) = Some (VDecFormat m)) /\
  (forall k, source io (VDec (DIo k)) = Some (VIo k)) /\
  (forall m, source io (VEnc (EFormat m)) = Some (VEncFormat m)) /\ (forall k, source io (VEnc (EIo k)) = Some (VIo k)).
Proof. repeat split; reflexivity. Qed.
Print Assumptions C73_source.

(** The chain of sources ends, if those of I/O errors do. *)
Inductive chain (io : io_errors) : evalue -> list evalue -> Prop :=
| ch_end v : source io v = None -> chain io v [v]
| ch_more v v' l : source io v = Some v' -> chain io v' l -> chain io v (v :: l).
Theorem C73_chain : forall io, (forall k, exists l, chain io (VIo k) l) -> forall v, exists l, chain io v l /\ (List.length l <= 3 \/ exists k, In (VIo k) l)%nat.
Proof.
  intros io Hio v. destruct v as [[m|k]|m|s|[m|k]|m|k].
  - exists [VDec (DFormat m); VDecFormat m; VStr (dfmt_text m)]. split; [|left; cbn; auto].
    eapply ch_more; [reflexivity|]. eapply ch_more; [reflexivity|]. now apply ch_end.
  - destruct (Hio k) as [l Hl]. exists (VDec (DIo k) :: l). split; [now eapply ch_more|].
    right. exists k. inversion Hl; subst; cbn; auto.
  - exists [VDecFormat m; VStr (dfmt_text m)]. split; [|left; cbn; auto]. eapply ch_more; [reflexivity|]. now apply ch_end.
  - exists [VStr s]. split; [now apply ch_end|left; cbn; auto].
  - exists [VEnc (EFormat m); VEncFormat m]. split; [|left; cbn; auto]. eapply ch_more; [reflexivity|]. now apply ch_end.
  - destruct (Hio k) as [l Hl]. exists (VEnc (EIo k) :: l). split; [now eapply ch_more|].
    right. exists k. inversion Hl; subst; cbn; auto.
  - exists [VEncFormat m]. split; [now apply ch_end|left; cbn; auto].
  - destruct (Hio k) as [l Hl]. exists l. split; [exact Hl|]. right. exists k. inversion Hl; subst; cbn; auto.
Qed.
Print Assumptions C73_chain.
Example C73_chain_case : forall k, exists l, chain (mk_io (fun _ => "I/O error"%string) (fun _ => None)) (VIo k) l.
Proof. intros k. exists [VIo k]. now apply ch_end. Qed.

(** The text of a format error tells its reason. *)
Theorem C73_distinct : forall io,
  (forall a b, display io (VDec (DFormat a)) = display io (VDec (DFormat b)) -> a = b) /\
  (forall a b, display io (VEnc (EFormat a)) = display io (VEnc (EFormat b)) -> a = b) /\
  (forall a b, display io (VDec (DFormat a)) <> display io (VEnc (EFormat b))) /\
  (forall a, display io (VDec (DFormat a)) <> ""%string) /\ (forall a, display io (VEnc (EFormat a)) <> ""%string).
Proof.
  intros io. repeat split.
  - intros a b. destruct a, b; cbn; intros H; reflexivity || discriminate H.
  - intros a b. destruct a, b; cbn; intros H; reflexivity || discriminate H.
  - intros a b. destruct a, b; discriminate.
  - intros a. destruct a; discriminate.
  - intros a. destruct a; discriminate.
Qed.
Print Assumptions C73_distinct.

(** The conversions keep kinds apart and lose nothing. *)
Theorem C73_from : (forall a b, from_io a = from_io b -> a = b) /\ (forall a b, from_format a = from_format b -> a = b) /\
  (forall a b, from_io a <> from_format b) /\ (forall a b, enc_from_io a = enc_from_io b -> a = b) /\
  (forall a b, enc_from_format a = enc_from_format b -> a = b) /\ (forall a b, enc_from_io a <> enc_from_format b).
Proof. unfold from_io, from_format, enc_from_io, enc_from_format. repeat split; intros a b H; congruence. Qed.
Print Assumptions C73_from.

(** ** C74 *)
Theorem C74_write_le : forall n bs,
  (n < 2 ^ 8 -> little_endian 1 n bs -> wlin (write_u8 n) bs (Ok tt)) /\
  (n < 2 ^ 16 -> little_endian 2 n bs -> wlin (write_u16 n) bs (Ok tt)) /\
  (n < 2 ^ 32 -> little_endian 4 n bs -> wlin (write_u32 n) bs (Ok tt)) /\
  (n < 2 ^ 64 -> little_endian 8 n bs -> wlin (write_u64 n) bs (Ok tt)).
Proof. exact write_le_spec. Qed.
Print Assumptions C74_write_le.
Theorem C74_exists :
  (forall n, n < 2 ^ 8 -> exists bs, little_endian 1 n bs) /\ (forall n, n < 2 ^ 16 -> exists bs, little_endian 2 n bs) /\
  (forall n, n < 2 ^ 32 -> exists bs, little_endian 4 n bs) /\ (forall n, n < 2 ^ 64 -> exists bs, little_endian 8 n bs).
Proof. exact little_endian_exists. Qed.
Print Assumptions C74_exists.
Theorem C74_unique : forall k n bs bs', little_endian k n bs -> little_endian k n bs' -> bs = bs'.
Proof. exact little_endian_inj. Qed.
Print Assumptions C74_unique.
(** A writer that takes three bytes at a time and fails in the second write. *)
Example C74_case : write_u64 0x0102030405060708 fresh = (mk_writer [8; 7; 6; 5; 4; 3; 2; 1] [], Ok tt) /\
  write_u32 0x01020304 (mk_writer [9] [WAccept 3; WAccept 1; WFail 5]) = (mk_writer [9; 4; 3; 2] [], Err (EIo (OtherIo 5))) /\
  little_endian 8 0x0102030405060708 [8; 7; 6; 5; 4; 3; 2; 1].
Proof. split; [vm_compute; reflexivity|]. split; [vm_compute; reflexivity|]. split; [reflexivity|]. split; [|reflexivity]. repeat constructor. Qed.
