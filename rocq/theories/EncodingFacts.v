(** Facts about integer encoding. *)

From Verif Require Import Go GoFacts Encoding Spec.
From Coq Require Import ZifyBool ZifyNat.
Local Open Scope Z_scope.
Ltac Zify.zify_post_hook ::= Z.div_mod_to_equations.

Lemma be_value_acc_app acc l k :
  be_value_acc acc (l ++ k) = be_value_acc (be_value_acc acc l) k.
Proof. revert acc. induction l; intro acc; simpl; auto. Qed.

Lemma be_value_snoc l b : be_value (l ++ [b]) = be_value l * 256 + b.
Proof. unfold be_value. rewrite be_value_acc_app. reflexivity. Qed.

(** The n-th byte. *)
Lemma byte_at v n : 0 <= n ->
  u8 (Z.land (Z.shiftr v (n * 8)) 255) = (v / 256 ^ n) mod 256.
Proof.
  intros Hn. unfold u8.
  rewrite Z.shiftr_div_pow2 by lia.
  change 255 with (Z.ones 8). rewrite Z.land_ones by lia.
  change (2 ^ 8) with 256.
  rewrite Z.mod_mod by lia.
  replace (n * 8) with (8 * n) by lia. rewrite Z.pow_mul_r by lia.
  reflexivity.
Qed.

Lemma IntegerToByte_length v n : length (IntegerToByte v n) = n.
Proof. unfold IntegerToByte. rewrite rev_length, map_length, seq_length. reflexivity. Qed.

Lemma IntegerToByte_bytes v n : is_bytes (IntegerToByte v n).
Proof.
  unfold IntegerToByte, is_bytes. apply Forall_rev. rewrite Forall_map.
  apply Forall_forall. intros x _. unfold is_byte, u8. apply Z.mod_pos_bound. lia.
Qed.

(** Peeling the most significant and the least significant byte. *)
Lemma IntegerToByte_S v n :
  IntegerToByte v (S n) = (u64 v / 256 ^ Z.of_nat n) mod 256 :: IntegerToByte v n.
Proof.
  unfold IntegerToByte.
  rewrite seq_S, map_app, rev_app_distr. cbn [map rev app].
  rewrite byte_at by lia. reflexivity.
Qed.

Lemma be_value_acc_shift acc l :
  be_value_acc acc l = acc * 256 ^ Z.of_nat (length l) + be_value l.
Proof.
  revert acc. induction l as [|b l IH]; intros acc.
  - unfold be_value. simpl. lia.
  - unfold be_value. cbn [be_value_acc length]. rewrite IH.
    rewrite (IH (0 * 256 + b)).
    rewrite Nat2Z.inj_succ, Z.pow_succ_r by lia. ring.
Qed.

Lemma be_value_cons b l :
  be_value (b :: l) = b * 256 ^ Z.of_nat (length l) + be_value l.
Proof. unfold be_value. cbn [be_value_acc]. rewrite be_value_acc_shift. reflexivity. Qed.

Lemma be_value_IntegerToByte v n :
  be_value (IntegerToByte v n) = u64 v mod 256 ^ Z.of_nat n.
Proof.
  induction n as [|n IH].
  - unfold IntegerToByte, be_value. simpl. rewrite Z.mod_1_r. reflexivity.
  - rewrite IntegerToByte_S, be_value_cons, IntegerToByte_length, IH.
    rewrite Nat2Z.inj_succ, Z.pow_succ_r by lia.
    set (p := 256 ^ Z.of_nat n).
    assert (0 < p) by (apply Z.pow_pos_nonneg; lia).
    rewrite (Z.mul_comm 256 p).
    rewrite Z.rem_mul_r by lia. ring.
Qed.

Lemma be_value_bound l : is_bytes l -> 0 <= be_value l < 256 ^ Z.of_nat (length l).
Proof.
  induction 1 as [|b l Hb _ IH].
  - unfold be_value. simpl. lia.
  - rewrite be_value_cons. unfold is_byte in Hb. cbn [length].
    rewrite Nat2Z.inj_succ, Z.pow_succ_r by lia. nia.
Qed.

(** A digit string is determined by its value and its length. *)
Lemma be_value_inj l k :
  is_bytes l -> is_bytes k -> length l = length k -> be_value l = be_value k -> l = k.
Proof.
  intros Hl. revert k. induction Hl as [|b l Hb Hl IH]; intros k Hk HL HV.
  - destruct k; [reflexivity|discriminate].
  - destruct k as [|c k]; [discriminate|].
    inversion Hk as [|? ? Hc Hk']; subst. cbn [length] in HL.
    rewrite !be_value_cons in HV.
    injection HL as HL. rewrite <- HL in HV.
    pose proof (be_value_bound l Hl) as B1.
    pose proof (be_value_bound k Hk') as B2. rewrite <- HL in B2.
    set (p := 256 ^ Z.of_nat (length l)) in *.
    assert (b = c) by nia. subst c.
    f_equal. apply IH; auto. nia.
Qed.

Lemma byteToIntegerLoop_spec rb n v :
  is_bytes rb -> 0 <= n ->
  byteToIntegerLoop rb n v mod 2 ^ 64
  = (v + 256 ^ n * be_value (rev rb)) mod 2 ^ 64.
Proof.
  intros Hb. revert n v. induction Hb as [|x t Hx _ IH]; intros n v Hn.
  - cbn [byteToIntegerLoop rev]. unfold be_value. simpl be_value_acc.
    rewrite Z.mul_0_r, Z.add_0_r. reflexivity.
  - cbn [byteToIntegerLoop rev]. rewrite IH by lia.
    rewrite be_value_snoc.
    rewrite Z.shiftl_mul_pow2 by lia.
    replace (2 ^ (n * 8)) with (256 ^ n)
      by (replace (n * 8) with (8 * n) by lia; rewrite Z.pow_mul_r by lia; reflexivity).
    unfold u64.
    rewrite Z.pow_add_r by lia. change (256 ^ 1) with 256.
    rewrite Z.add_mod_idemp_l by lia.
    rewrite <- Z.add_mod_idemp_l by lia.
    rewrite (Z.add_mod_idemp_r v) by lia.
    rewrite Z.add_mod_idemp_l by lia.
    f_equal. ring.
Qed.

Lemma byteToIntegerLoop_range rb n v :
  0 <= v < 2 ^ 64 -> 0 <= byteToIntegerLoop rb n v < 2 ^ 64.
Proof.
  revert n v. induction rb as [|x t IH]; intros n v Hv; simpl; [assumption|].
  apply IH. unfold u64. apply Z.mod_pos_bound. lia.
Qed.

Lemma ByteToInteger_spec b : is_bytes b -> ByteToInteger b = be_value b mod 2 ^ 64.
Proof.
  intros Hb. unfold ByteToInteger.
  pose proof (byteToIntegerLoop_spec (rev b) 0 0 (Forall_rev Hb)) as H.
  rewrite rev_involutive in H.
  rewrite <- (Z.mod_small (byteToIntegerLoop (rev b) 0 0) (2 ^ 64))
    by (apply byteToIntegerLoop_range; lia).
  rewrite H by lia. f_equal. lia.
Qed.

Lemma ByteToInteger_small b :
  is_bytes b -> (length b <= 8)%nat -> ByteToInteger b = be_value b.
Proof.
  intros Hb HL. rewrite ByteToInteger_spec by assumption.
  apply Z.mod_small. pose proof (be_value_bound b Hb) as [H1 H2].
  split; [assumption|]. eapply Z.lt_le_trans; [exact H2|].
  change (2 ^ 64) with (256 ^ 8). apply Z.pow_le_mono_r; lia.
Qed.

Lemma IntegerToByte_ByteToInteger b :
  is_bytes b -> (length b <= 8)%nat -> IntegerToByte (ByteToInteger b) (length b) = b.
Proof.
  intros Hb HL. apply be_value_inj.
  - apply IntegerToByte_bytes.
  - assumption.
  - apply IntegerToByte_length.
  - rewrite be_value_IntegerToByte, ByteToInteger_small by assumption.
    pose proof (be_value_bound b Hb) as HB.
    assert (256 ^ Z.of_nat (length b) <= 256 ^ 8) by (apply Z.pow_le_mono_r; lia).
    unfold u64. rewrite !Z.mod_small; try lia.
Qed.

Lemma ByteToInteger_IntegerToByte v n :
  0 <= v < 2 ^ 64 -> ByteToInteger (IntegerToByte v n) = v mod 256 ^ Z.of_nat n.
Proof.
  intros Hv. rewrite ByteToInteger_spec by apply IntegerToByte_bytes.
  rewrite be_value_IntegerToByte. unfold u64. rewrite (Z.mod_small v) by assumption.
  apply Z.mod_small.
  assert (0 < 256 ^ Z.of_nat n) by (apply Z.pow_pos_nonneg; lia).
  pose proof (Z.mod_pos_bound v (256 ^ Z.of_nat n) H).
  pose proof (Z.mod_le v (256 ^ Z.of_nat n)). lia.
Qed.

Lemma IntegerToByte_3 v : 0 <= v < 2 ^ 24 -> IntegerToByte v 3 = be3 v.
Proof.
  intros Hv. change (2 ^ 24) with 16777216 in Hv. rewrite !IntegerToByte_S.
  unfold u64. rewrite (Z.mod_small v) by lia.
  change (Z.of_nat 2) with 2. change (Z.of_nat 1) with 1. change (Z.of_nat 0) with 0.
  change (256 ^ 2) with 65536. change (256 ^ 1) with 256. change (256 ^ 0) with 1.
  rewrite Z.div_1_r.
  change (IntegerToByte v 0) with (@nil Z). unfold be3.
  rewrite (Z.mod_small (v / 65536)) by lia. reflexivity.
Qed.

Lemma ByteToInteger_be3 v : 0 <= v < 2 ^ 24 -> ByteToInteger (be3 v) = v.
Proof.
  intros Hv. rewrite <- IntegerToByte_3 by assumption.
  rewrite ByteToInteger_IntegerToByte by lia.
  apply Z.mod_small. change (256 ^ Z.of_nat 3) with (2 ^ 24). lia.
Qed.

Lemma ByteToInteger_3 a b c :
  is_byte a -> is_byte b -> is_byte c ->
  ByteToInteger [a; b; c] = a * 65536 + b * 256 + c.
Proof.
  unfold is_byte. intros. rewrite ByteToInteger_small.
  - unfold be_value. simpl. ring.
  - repeat constructor; lia.
  - simpl. lia.
Qed.
