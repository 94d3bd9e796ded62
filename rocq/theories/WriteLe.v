(** [WriteBytesExt::write_le] for all four types, src/traits.rs 17-45, and what it writes. *)
From Verif Require Import Base Common Lzw Encoder EncLin.
Open Scope N_scope.

(** src/traits.rs 31-37: [n as u16], then [(n >> 16) as u16]. *)
Definition write_u32 (n : N) : W unit := write_u16 (n mod 2 ^ 16) ;;; write_u16 (n / 2 ^ 16 mod 2 ^ 16).
(** src/traits.rs 39-45. *)
Definition write_u64 (n : N) : W unit := write_u32 (n mod 2 ^ 32) ;;; write_u32 (n / 2 ^ 32 mod 2 ^ 32).

(** The number with these base-256 digits, least significant first. *)
Fixpoint le_value (bs : list N) : N := match bs with [] => 0 | b :: bs => b + 256 * le_value bs end.
(** [k] bytes, least significant first, that make up [n]. *)
Definition little_endian (k : nat) (n : N) (bs : list N) : Prop := length bs = k /\ bytes_ok bs /\ le_value bs = n.

Lemma little_endian_inj k : forall n bs bs', little_endian k n bs -> little_endian k n bs' -> bs = bs'.
Proof.
  induction k as [|k IH]; intros n [|b bs] [|b' bs'] (L1 & B1 & V1) (L2 & B2 & V2); cbn [length le_value] in *; try discriminate; auto.
  inversion B1 as [|? ? B1a B1b]; inversion B2 as [|? ? B2a B2b]; subst. unfold byte_ok in *.
  assert (b = b' /\ le_value bs = le_value bs') as [-> E] by lia. f_equal.
  apply (IH (le_value bs')); (split; [lia|split; auto]).
Qed.
Lemma little_endian_app k1 k2 a b bs1 bs2 : little_endian k1 a bs1 -> little_endian k2 b bs2 ->
  little_endian (k1 + k2) (a + 256 ^ N.of_nat k1 * b) (bs1 ++ bs2).
Proof.
  intros (L1 & B1 & V1) (L2 & B2 & V2). split; [rewrite app_length; lia|]. split; [apply Forall_app; split; assumption|].
  revert k1 a L1 V1. induction bs1 as [|x bs1 IH]; intros k1 a L1 V1; cbn [app le_value length] in *.
  - subst. cbn. now destruct (le_value bs2).
  - destruct k1 as [|k1]; [discriminate L1|]. inversion B1; subst. rewrite (IH ltac:(assumption) k1 (le_value bs1)); [|lia|reflexivity].
    rewrite Nat2N.inj_succ, N.pow_succ_r'. lia.
Qed.

Definition le32 (n : N) : list N := le16 (n mod 2 ^ 16) ++ le16 (n / 2 ^ 16 mod 2 ^ 16).
Definition le64 (n : N) : list N := le32 (n mod 2 ^ 32) ++ le32 (n / 2 ^ 32 mod 2 ^ 32).
Lemma le16_little n : n < 2 ^ 16 -> little_endian 2 n (le16 n).
Proof.
  intros H. split; [reflexivity|]. split.
  - unfold le16, byte_ok. repeat apply Forall_cons; try apply Forall_nil; apply N.mod_lt; lia.
  - unfold le16. cbn [le_value]. change (2 ^ 16) with 65536 in H. rewrite (N.mod_small (n / 256)) by (apply N.div_lt_upper_bound; lia).
    rewrite (N.div_mod n 256) at 3 by lia. lia.
Qed.
Lemma half n m k : m = 256 ^ k -> 0 < m -> n < m * m -> n = n mod m + 256 ^ k * (n / m mod m).
Proof.
  intros -> Hm H. rewrite (N.mod_small (n / _)) by (apply N.div_lt_upper_bound; lia).
  rewrite N.add_comm. apply N.div_mod. lia.
Qed.
Lemma le32_little n : n < 2 ^ 32 -> little_endian 4 n (le32 n).
Proof.
  intros H. rewrite (half n (2 ^ 16) 2 eq_refl eq_refl H) at 1.
  apply (little_endian_app 2 2); apply le16_little; apply N.mod_lt; discriminate.
Qed.
Lemma le64_little n : n < 2 ^ 64 -> little_endian 8 n (le64 n).
Proof.
  intros H. rewrite (half n (2 ^ 32) 4 eq_refl eq_refl H) at 1.
  apply (little_endian_app 4 4); apply le32_little; apply N.mod_lt; discriminate.
Qed.

Lemma write_u32_lin n : wlin (write_u32 n) (le32 n) (Ok tt).
Proof. eapply wlin_bind; [apply write_all_lin|apply write_all_lin]. Qed.
Lemma write_u64_lin n : wlin (write_u64 n) (le64 n) (Ok tt).
Proof. eapply wlin_bind; [apply write_u32_lin|apply write_u32_lin]. Qed.

Theorem write_le_spec n bs :
  (n < 2 ^ 8 -> little_endian 1 n bs -> wlin (write_u8 n) bs (Ok tt)) /\
  (n < 2 ^ 16 -> little_endian 2 n bs -> wlin (write_u16 n) bs (Ok tt)) /\
  (n < 2 ^ 32 -> little_endian 4 n bs -> wlin (write_u32 n) bs (Ok tt)) /\
  (n < 2 ^ 64 -> little_endian 8 n bs -> wlin (write_u64 n) bs (Ok tt)).
Proof.
  split; [|split; [|split]]; intros Hn H.
  - rewrite (little_endian_inj 1 n bs [n] H); [apply write_all_lin|]. split; [reflexivity|]. split; [constructor; [exact Hn|constructor]|cbn; lia].
  - rewrite (little_endian_inj 2 n bs _ H (le16_little n Hn)). apply write_all_lin.
  - rewrite (little_endian_inj 4 n bs _ H (le32_little n Hn)). apply write_u32_lin.
  - rewrite (little_endian_inj 8 n bs _ H (le64_little n Hn)). apply write_u64_lin.
Qed.
Theorem little_endian_exists :
  (forall n, n < 2 ^ 8 -> exists bs, little_endian 1 n bs) /\ (forall n, n < 2 ^ 16 -> exists bs, little_endian 2 n bs) /\
  (forall n, n < 2 ^ 32 -> exists bs, little_endian 4 n bs) /\ (forall n, n < 2 ^ 64 -> exists bs, little_endian 8 n bs).
Proof.
  repeat split; intros n Hn.
  - exists [n]. split; [reflexivity|]. split; [constructor; [exact Hn|constructor]|cbn; lia].
  - exists (le16 n). now apply le16_little.
  - exists (le32 n). now apply le32_little.
  - exists (le64 n). now apply le64_little.
Qed.
