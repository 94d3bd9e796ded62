(** Property C84: the numbers of blocks, extensions and disposal methods. *)
From Verif Require Import Base Common.
Open Scope N_scope.

(** The values of the GIF89a specification (sections 20, 23, 24, 25, 26, 27). *)
Theorem C84_values :
  (block_u8 BkImage = 0x2C /\ block_u8 BkExtension = 0x21 /\ block_u8 BkTrailer = 0x3B) /\
  (extension_u8 XText = 0x01 /\ extension_u8 XControl = 0xF9 /\ extension_u8 XComment = 0xFE /\ extension_u8 XApplication = 0xFF) /\
  (disposal_u8 DAny = 0 /\ disposal_u8 DKeep = 1 /\ disposal_u8 DBackground = 2 /\ disposal_u8 DPrevious = 3).
Proof. repeat split. Qed.
Print Assumptions C84_values.

(** [from_u8] knows exactly these, and finds what has the number. With [AnyExtension]: [into_known] undoes [from]. *)
Theorem C84_block : forall n b, block_from_u8 n = Some b <-> block_u8 b = n.
Proof.
  intros n b. split.
  - unfold block_from_u8. destruct (N.eqb_spec n 0x2C) as [->|_]; [intros [= <-]; reflexivity|].
    destruct (N.eqb_spec n 0x21) as [->|_]; [intros [= <-]; reflexivity|].
    destruct (N.eqb_spec n 0x3B) as [->|_]; [intros [= <-]; reflexivity|discriminate].
  - intros <-. destruct b; reflexivity.
Qed.
Print Assumptions C84_block.
Theorem C84_extension : forall n x, extension_from_u8 n = Some x <-> extension_u8 x = n.
Proof.
  intros n x. split.
  - unfold extension_from_u8. destruct (N.eqb_spec n 0x01) as [->|_]; [intros [= <-]; reflexivity|].
    destruct (N.eqb_spec n 0xF9) as [->|_]; [intros [= <-]; reflexivity|].
    destruct (N.eqb_spec n 0xFE) as [->|_]; [intros [= <-]; reflexivity|].
    destruct (N.eqb_spec n 0xFF) as [->|_]; [intros [= <-]; reflexivity|discriminate].
  - intros <-. destruct x; reflexivity.
Qed.
Print Assumptions C84_extension.
Theorem C84_disposal : forall n d, disposal_from_u8 n = Some d <-> disposal_u8 d = n.
Proof.
  intros n d. split.
  - unfold disposal_from_u8. destruct n as [|[[p|p|]|[p|p|]|]]; intros [= <-]; reflexivity.
  - intros <-. destruct d; reflexivity.
Qed.
Print Assumptions C84_disposal.

(** ** Cases *)
Example C84_case : extension_from_u8 0x01 = Some XText /\ extension_from_u8 0x02 = None /\ block_from_u8 0x3A = None /\ disposal_from_u8 4 = None.
Proof. repeat split. Qed.
