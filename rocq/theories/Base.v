(** Shared vocabulary: bytes, results, little-endian words, list helpers.
    Nothing in this file models a particular function of /repo except
    where a line range is cited. *)
From Coq Require Export List Arith NArith ZArith Bool Lia.
From Coq Require Export ZifyBool ZifyNat ZifyN.
Export ListNotations.
Open Scope list_scope.

Ltac Zify.zify_post_hook ::= Z.div_mod_to_equations.

(** A byte is an [N]; [byte_ok] is the range of Rust's u8. *)
Definition byte := N.
Definition byte_ok (b : N) : Prop := (b < 256)%N.
Definition bytes_ok (l : list N) : Prop := Forall byte_ok l.
Definition u16_ok (n : N) : Prop := (n < 65536)%N.

(** Boolean versions used in decidable well-formedness predicates. *)
Definition byte_okb (b : N) : bool := (b <? 256)%N.
Definition bytes_okb (l : list N) : bool := forallb byte_okb l.
Definition u16_okb (n : N) : bool := (n <? 65536)%N.

(** src/traits.rs 24-29 ([WriteBytesExt<u16>]): least significant byte first;
    [n as u8] and [(n >> 8) as u8] written as remainders. *)
Definition le16 (n : N) : list N := [(n mod 256)%N; ((n / 256) mod 256)%N].

(** [u16::from_le_bytes] on two bytes, used throughout src/reader/decoder.rs. *)
Definition rd16 (a b : N) : N := (a + 256 * b)%N.

(** Kinds of [std::io::Error] that occur in /repo. [OtherIo n] stands for an
    error made by the user's reader or writer. *)
Inductive iokind :=
| Unsupported | WriteZero | UnexpectedEof | OutOfMemory | InvalidData | InvalidInput
| OtherIo (n : N).

(** Messages of [DecodingError::format]. *)
Inductive dfmt :=
| MalformedHeader | BadState | FrameOutOfBounds | UnknownBlockType | ControlWrongLength
| InvalidMinimalCodeSize | MemoryLimitReached | OddSizedBuffer | BufferTooSmall
| ImageTruncated | UnexpectedDataMsg | NoImageData | NoColorTable.

(** src/reader/decoder.rs 40-47 [DecodingError]. *)
Inductive derr := DFormat (m : dfmt) | DIo (k : iokind).

(** src/encoder.rs 14-23 [EncodingFormatError], 37-44 [EncodingError]. *)
Inductive efmt := TooManyColors | MissingColorPalette | InvalidMinCodeSize.
Inductive eerr := EFormat (m : efmt) | EIo (k : iokind).

(** Outcome of a call: a Rust [Result], or a panic, or a loop that ran out of
    the fuel the model gave it ([Hang]). *)
Inductive res (E A : Type) :=
| Ok (a : A) | Err (e : E) | Panic | Hang.
Arguments Ok {E A} a. Arguments Err {E A} e. Arguments Panic {E A}. Arguments Hang {E A}.

Definition dres := res derr.
Definition eres := res eerr.

(** A result that is a Rust value (no panic, no divergence). *)
Definition returns {E A} (r : res E A) : Prop :=
  match r with Ok _ | Err _ => True | Panic | Hang => False end.

Definition is_nil {A} (l : list A) : bool := match l with [] => true | _ => false end.

Fixpoint list_eqb (a b : list N) : bool :=
  match a, b with
  | [], [] => true
  | x :: a', y :: b' => (x =? y)%N && list_eqb a' b'
  | _, _ => false
  end.

Lemma list_eqb_eq a b : list_eqb a b = true <-> a = b.
Proof.
  revert b; induction a as [|x a IH]; intros [|y b]; simpl; split; intro H; try easy.
  - apply andb_true_iff in H as [H1 H2]. apply N.eqb_eq in H1. apply IH in H2. congruence.
  - injection H as -> ->. rewrite N.eqb_refl. simpl. now apply IH.
Qed.

Lemma is_nil_true {A} (l : list A) : is_nil l = true <-> l = [].
Proof. destruct l; split; easy. Qed.
Lemma is_nil_false {A} (l : list A) : is_nil l = false <-> l <> [].
Proof. destruct l; split; easy. Qed.

Lemma rd16_le16 n : u16_ok n -> rd16 (n mod 256) ((n / 256) mod 256) = n.
Proof. unfold u16_ok, rd16. lia. Qed.

Lemma le16_length n : length (le16 n) = 2.
Proof. reflexivity. Qed.

Lemma le16_ok n : bytes_ok (le16 n).
Proof. repeat constructor; unfold byte_ok; lia. Qed.

Lemma rd16_u16 a b : byte_ok a -> byte_ok b -> u16_ok (rd16 a b).
Proof. unfold byte_ok, u16_ok, rd16. lia. Qed.

Lemma skipn_skipn {A} n k (l : list A) : skipn n (skipn k l) = skipn (n + k) l.
Proof.
  revert l. induction k as [|k IH]; intros l.
  - now rewrite Nat.add_0_r.
  - destruct l as [|x l]; [now rewrite !skipn_nil|].
    rewrite Nat.add_succ_r. cbn [skipn]. apply IH.
Qed.
