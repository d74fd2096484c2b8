(** Exact double arithmetic on dyadic numbers: [dexact x (scaled n k)] says that x is n / 2^k. *)
From Coq Require Import Reals Lra.
From Flocq Require Import Core IEEE754.Binary IEEE754.Bits.
From Verif Require Import Base Double_model Double_proofs UbxObs_proofs SbpEph_model SbpEph_spec SbpEph_proofs Near_proofs.
Open Scope Z_scope.

Lemma ex_dR x v : dexact x v <-> dfin x = true /\ dR x = v. Proof. reflexivity. Qed.
Ltac exd X F V := destruct X as [F V]; match type of V with (B2R 53 1024 ?x = ?v) => change (dR x = v) in V; change (dfin x = true) in F end.
Lemma scaled_0 n : scaled n 0 = IZR n. Proof. unfold scaled. change (bpow radix2 (- (0))) with 1%R. ring. Qed.
Lemma ex_Z n : Z.abs n <= 2 ^ 53 -> dexact (dofZ n) (scaled n 0).
Proof. intros H. rewrite scaled_0. apply ex_dR, dofZ_exact. exact H. Qed.
Lemma scaled_div n k : 0 <= k -> scaled n k = (IZR n / IZR (2 ^ k))%R.
Proof. intros K. unfold scaled. rewrite bpow_opp, pow_bpow by exact K. reflexivity. Qed.
Lemma big53 n k : Z.abs n < 2 ^ 53 -> 0 <= k -> (Rabs (scaled n k) <= bpow radix2 1000)%R.
Proof. intros N K. eapply Rle_trans; [apply (scaled_bound n k 53); lia|apply bpow_le; lia]. Qed.
Lemma ex_div n k : Z.abs n < 2 ^ 53 -> 0 <= k <= 52 -> dexact (ddiv (dofZ n) (dofZ (2 ^ k))) (scaled n k).
Proof.
  intros N K. destruct (dofZ_exact n ltac:(lia)) as [F V].
  assert (P : 2 ^ k <= 2 ^ 52) by (apply Z.pow_le_mono_r; lia). assert (0 < 2 ^ k) by (apply Z.pow_pos_nonneg; lia).
  destruct (dofZ_exact (2 ^ k) ltac:(lia)) as [G W].
  assert (Q : (dR (dofZ n) / dR (dofZ (2 ^ k)) = scaled n k)%R) by (rewrite V, W, scaled_div by lia; reflexivity).
  destruct (ddiv_spec (dofZ n) (dofZ (2 ^ k)) F) as [FM VM]; [rewrite W; apply IZR_neq; lia|rewrite Q; apply big53; lia|].
  apply ex_dR. split; [exact FM|]. rewrite VM, Q. apply rnd_id, scaled_format; lia.
Qed.
Lemma ex_mul x n k z : dexact x (scaled n k) -> 0 <= k <= 66 -> Z.abs z <= 2 ^ 53 -> Z.abs (n * z) < 2 ^ 53 -> dexact (dmul x (dofZ z)) (scaled (n * z) k).
Proof.
  intros X K Hz N. exd X F V. destruct (dofZ_exact z Hz) as [G W].
  assert (Q : (dR x * dR (dofZ z) = scaled (n * z) k)%R) by (rewrite V, W; apply scaled_mul).
  destruct (dmul_spec x (dofZ z) F G) as [FM VM]; [rewrite Q; apply big53; lia|].
  apply ex_dR. split; [exact FM|]. rewrite VM, Q. apply rnd_id, scaled_format; lia.
Qed.
Lemma ex_sub x y n m k : dexact x (scaled n k) -> dexact y (scaled m k) -> 0 <= k <= 66 -> Z.abs (n - m) < 2 ^ 53 -> dexact (dsub x y) (scaled (n - m) k).
Proof.
  intros X Y K N. exd X F V. exd Y G W.
  assert (Q : (dR x - dR y = scaled (n - m) k)%R) by (rewrite V, W; unfold scaled; rewrite minus_IZR; ring).
  destruct (dsub_spec x y F G) as [FM VM]; [rewrite Q; apply big53; lia|].
  apply ex_dR. split; [exact FM|]. rewrite VM, Q. apply rnd_id, scaled_format; lia.
Qed.
Lemma ex_add x y n m k : dexact x (scaled n k) -> dexact y (scaled m k) -> 0 <= k <= 66 -> Z.abs (n + m) < 2 ^ 53 -> dexact (dadd x y) (scaled (n + m) k).
Proof.
  intros X Y K N. exd X F V. exd Y G W.
  assert (Q : (dR x + dR y = scaled (n + m) k)%R) by (rewrite V, W; unfold scaled; rewrite plus_IZR; ring).
  destruct (dadd_spec x y F G) as [FM VM]; [rewrite Q; apply big53; lia|].
  apply ex_dR. split; [exact FM|]. rewrite VM, Q. apply rnd_id, scaled_format; lia.
Qed.
Lemma scaled_up n k j : 0 <= k -> 0 <= j -> scaled n k = scaled (n * 2 ^ j) (k + j).
Proof. intros K J. unfold scaled. rewrite mult_IZR, pow_bpow by exact J. rewrite Rmult_assoc, <- bpow_plus. do 2 f_equal. lia. Qed.
Lemma ex_floor x n k : dexact x (scaled n k) -> 0 <= k -> dfloor x = Some (n / 2 ^ k).
Proof.
  intros X K. exd X F V. rewrite dfloor_spec, V, scaled_div by assumption. f_equal.
  assert (0 < 2 ^ k) by (apply Z.pow_pos_nonneg; lia). destruct (half_lt n (2 ^ k) _ H eq_refl) as [A B]. apply Zfloor_imp. rewrite plus_IZR. split; assumption.
Qed.
Lemma ex_round x n k : dexact x (scaled n k) -> 0 <= k -> exists z, dround x = Some z /\ 2 * Z.abs (z * 2 ^ k - n) <= 2 ^ k.
Proof.
  intros X K. exd X F V. apply (dint_fin zra) in F. destruct F as (z & Q). exists z. split; [exact Q|].
  pose proof (dround_close x z Q) as C. rewrite V, scaled_div in C by exact K. assert (0 < 2 ^ k) by (apply Z.pow_pos_nonneg; lia).
  assert (P : (0 < IZR (2 ^ k))%R) by (apply IZR_lt; lia). apply le_IZR. rewrite mult_IZR, abs_IZR, minus_IZR, mult_IZR.
  replace (IZR z * IZR (2 ^ k) - IZR n)%R with ((IZR z - IZR n / IZR (2 ^ k)) * IZR (2 ^ k))%R by (field; lra).
  rewrite Rabs_mult, (Rabs_pos_eq (IZR (2 ^ k))) by lra. nra.
Qed.
Lemma ex_round_int x n k : dexact x (scaled (n * 2 ^ k) k) -> 0 <= k -> dround x = Some n.
Proof.
  intros X K. destruct (ex_round x _ k X K) as (z & Q & B). rewrite Q. f_equal. assert (0 < 2 ^ k) by (apply Z.pow_pos_nonneg; lia). nia.
Qed.
Lemma ex_ltb0 x n k : dexact x (scaled n k) -> 0 <= k -> dltb x (dofZ 0) = (n <? 0).
Proof.
  intros X K. exd X F V. unfold dltb. change (dofZ 0) with (B754_zero 53 1024 false). rewrite Bcompare_correct by (exact F || reflexivity).
  change (B2R 53 1024 x) with (dR x). rewrite V. change (B2R 53 1024 (B754_zero 53 1024 false)) with 0%R. rewrite scaled_div by exact K.
  assert (0 < 2 ^ k) by (apply Z.pow_pos_nonneg; lia). assert (P : (0 < IZR (2 ^ k))%R) by (apply IZR_lt; lia).
  destruct (Z.ltb_spec n 0) as [L|L].
  - assert (E : (IZR n / IZR (2 ^ k) < 0)%R) by (apply Rmult_lt_reg_r with (IZR (2 ^ k)); [exact P|]; unfold Rdiv; rewrite Rmult_assoc, Rinv_l, Rmult_1_r, Rmult_0_l by lra; apply IZR_lt; exact L).
    rewrite Rcompare_Lt by exact E. reflexivity.
  - assert (E : (0 <= IZR n / IZR (2 ^ k))%R) by (apply Rmult_le_reg_r with (IZR (2 ^ k)); [exact P|]; unfold Rdiv; rewrite Rmult_assoc, Rinv_l, Rmult_1_r, Rmult_0_l by lra; apply IZR_le; exact L).
    destruct (Rcompare_spec (IZR n / IZR (2 ^ k)) 0); [lra|reflexivity|reflexivity].
Qed.
