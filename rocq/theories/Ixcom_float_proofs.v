From Coq Require Import Reals Lra.
From Flocq Require Import Core IEEE754.Binary IEEE754.Bits.
From Verif Require Import Base Bytestream_model Double_model Double_proofs UbxObs_model Esf_model Esf_proofs Ixcom_model.
Open Scope Z_scope.

#[local] Instance prec24' : Prec_gt_0 24 := eq_refl.
Lemma fmul_spec x y : ffin x = true -> ffin y = true -> (Rabs (fR x * fR y) <= bpow radix2 100)%R ->
  ffin (fmul x y) = true /\ fR (fmul x y) = rnd32 (fR x * fR y).
Proof.
  intros Fx Fy Hb. pose proof (Bmult_correct 24 128 eq_refl eq_refl binop_nan_pl32 mode_NE x y) as H.
  rewrite Rlt_bool_true in H.
  - destruct H as (H1 & H2 & _). split; [|exact H1]. unfold ffin, fmul, b32_mult in *. cbv zeta. rewrite H2, Fx, Fy. reflexivity.
  - apply rnd32_bound. exact Hb.
Qed.
Lemma acc_field_spec b : ffin (fofbits b) = true -> (Rabs (fR (fofbits b)) <= 1000000)%R -> -32768 <= acc_field b <= 32767 /\
  (Rabs (IZR (acc_field b) - clamp16 (fR (fofbits b) * 32768 / (4 * 9.80665))) <= / 2 + / 128)%R.
Proof.
  intros F1 B. unfold acc_field, f_acc. set (x := fR (fofbits b)) in *. apply Rabs_le_inv in B.
  destruct (fme_spec (fofbits 0x3a9ce80a) 10283018 (-33) ltac:(vm_compute; reflexivity)) as [F2 R2].
  change (bpow radix2 (-33)) with (/ 8589934592)%R in R2.
  assert (Q : (fR (fofbits b) / fR (fofbits 0x3a9ce80a) = x * 8589934592 / 10283018)%R) by (fold x; rewrite R2; field).
  destruct (fdiv_spec (fofbits b) (fofbits 0x3a9ce80a) F1) as [F3 R3].
  - rewrite R2. lra.
  - rewrite Q. apply Rabs_le. change (bpow radix2 100) with 1267650600228229401496703205376%R. lra.
  - rewrite Q in R3. destruct (clamp_spec _ F3 _ R3) as [C1 C2]. split; [exact C1|].
    set (z := IZR (float_to_s16_clamped (fdiv (fofbits b) (fofbits 0x3a9ce80a)))) in *.
    assert (L : (Rabs (clamp16 (x * 8589934592 / 10283018) - clamp16 (x * 32768 / (4 * 9.80665))) <= / 200)%R).
    { destruct (Rlt_dec 80 x) as [A|A]; [|destruct (Rlt_dec x (-80)) as [D|D]].
      - unfold clamp16. rewrite !(Rmin_left 32767) by lra. rewrite Rminus_diag_eq by reflexivity. rewrite Rabs_R0. lra.
      - unfold clamp16. rewrite !(Rmin_right 32767) by lra. rewrite !Rmax_left by lra. rewrite Rminus_diag_eq by reflexivity. rewrite Rabs_R0. lra.
      - eapply Rle_trans; [apply clamp_lip|]. apply Rabs_le. lra. }
    apply Rabs_le_inv in C2, L. apply Rabs_le. lra.
Qed.
(** 57.2957795 = 180 / pi to nine digits *)
Lemma gyr_field_spec b : ffin (fofbits b) = true -> (Rabs (fR (fofbits b)) <= 1000000)%R -> -32768 <= gyr_field b <= 32767 /\
  (Rabs (IZR (gyr_field b) - clamp16 (fR (fofbits b) * 57.2957795 * 32768 / 125)) <= / 2 + / 128)%R.
Proof.
  intros F1 B. unfold gyr_field, f_deg, f_gyr. set (x := fR (fofbits b)) in *. apply Rabs_le_inv in B.
  destruct (fme_spec (fofbits 0x42652ee1) 15019745 (-18) ltac:(vm_compute; reflexivity)) as [F2 R2].
  change (bpow radix2 (-18)) with (/ 262144)%R in R2.
  destruct (fme_spec (fofbits 0x3b7a0000) 16384000 (-32) ltac:(vm_compute; reflexivity)) as [F4 R4].
  change (bpow radix2 (-32)) with (/ 4294967296)%R in R4.
  assert (QM : (fR (fofbits b) * fR (fofbits 0x42652ee1) = x * 15019745 / 262144)%R) by (fold x; rewrite R2; field).
  destruct (fmul_spec (fofbits b) (fofbits 0x42652ee1) F1 F2) as [F5 R5].
  { rewrite QM. apply Rabs_le. change (bpow radix2 100) with 1267650600228229401496703205376%R. lra. }
  rewrite QM in R5. set (p := (x * 15019745 / 262144)%R) in *. set (q := rnd32 p) in *.
  assert (Er : (Rabs (q - p) <= bpow radix2 (27 - 25))%R).
  { apply rnd32_err; [lia|]. apply Rabs_lt. change (bpow radix2 27) with 134217728%R. unfold p. lra. }
  change (bpow radix2 (27 - 25)) with 4%R in Er. apply Rabs_le_inv in Er.
  assert (Q : (fR (fmul (fofbits b) (fofbits 0x42652ee1)) / fR (fofbits 0x3b7a0000) = q * 32768 / 125)%R) by (rewrite R5, R4; field).
  assert (HP : p = (x * 15019745 / 262144)%R) by reflexivity. clearbody p.
  destruct (fdiv_spec (fmul (fofbits b) (fofbits 0x42652ee1)) (fofbits 0x3b7a0000) F5) as [F3 R3].
  - rewrite R4. lra.
  - rewrite Q. apply Rabs_le. change (bpow radix2 100) with 1267650600228229401496703205376%R. lra.
  - rewrite Q in R3. destruct (clamp_spec _ F3 _ R3) as [C1 C2]. split; [exact C1|].
    set (z := IZR (float_to_s16_clamped (fdiv (fmul (fofbits b) (fofbits 0x42652ee1)) (fofbits 0x3b7a0000)))) in *.
    assert (L : (Rabs (clamp16 (q * 32768 / 125) - clamp16 (x * 57.2957795 * 32768 / 125)) <= / 200)%R).
    { destruct (Rlt_dec 4 x) as [A|A]; [|destruct (Rlt_dec x (-4)) as [D|D]].
      - unfold clamp16. rewrite !(Rmin_left 32767) by lra. rewrite Rminus_diag_eq by reflexivity. rewrite Rabs_R0. lra.
      - unfold clamp16. rewrite !(Rmin_right 32767) by lra. rewrite !Rmax_left by lra. rewrite Rminus_diag_eq by reflexivity. rewrite Rabs_R0. lra.
      - assert (Er2 : (Rabs (q - p) <= bpow radix2 (8 - 25))%R).
        { apply rnd32_err; [lia|]. apply Rabs_lt. change (bpow radix2 8) with 256%R. lra. }
        change (bpow radix2 (8 - 25)) with (/ 131072)%R in Er2. apply Rabs_le_inv in Er2.
        eapply Rle_trans; [apply clamp_lip|]. apply Rabs_le. lra. }
    apply Rabs_le_inv in C2, L. apply Rabs_le. lra.
Qed.
(** the odometry velocity *)
Lemma quot_close m d : 0 < d -> (Rabs (IZR (Z.quot m d) - IZR m / IZR d) < 1)%R.
Proof.
  intros Hd. pose proof (Z.quot_rem' m d) as E. pose proof (Z.rem_bound_abs m d ltac:(lia)) as B.
  assert (D : (0 < IZR d)%R) by (apply IZR_lt; lia).
  assert (E' : IZR m = (IZR d * IZR (Z.quot m d) + IZR (Z.rem m d))%R) by (rewrite <- mult_IZR, <- plus_IZR; f_equal; exact E).
  assert (B' : (- IZR d < IZR (Z.rem m d) < IZR d)%R) by (split; [rewrite <- opp_IZR|]; apply IZR_lt; lia).
  replace (IZR (Z.quot m d) - IZR m / IZR d)%R with (- (IZR (Z.rem m d) / IZR d))%R by (rewrite E'; field; lra).
  rewrite Rabs_Ropp. apply Rabs_lt. split.
  - apply Rmult_lt_reg_r with (IZR d); [exact D|]. unfold Rdiv. rewrite Rmult_assoc, Rinv_l by lra. lra.
  - apply Rmult_lt_reg_r with (IZR d); [exact D|]. unfold Rdiv. rewrite Rmult_assoc, Rinv_l by lra. lra.
Qed.
Lemma ftrunc_spec x : ffin x = true -> exists z, ftrunc x = Some z /\ (Rabs (IZR z - fR x) < 1)%R.
Proof.
  destruct x as [s|s|s pl|s m e H]; intros F; try discriminate.
  - exists 0. split; [reflexivity|]. unfold fR. cbn [B2R]. rewrite Rminus_0_r, Rabs_R0. lra.
  - eexists. split; [reflexivity|]. unfold fR. cbn [B2R]. unfold F2R. cbn [Fnum Fexp]. destruct (Z.leb_spec 0 e).
    + rewrite mult_IZR. replace (IZR (2 ^ e)) with (bpow radix2 e) by (symmetry; apply pow_bpow; lia). rewrite Rminus_diag_eq by reflexivity. rewrite Rabs_R0. lra.
    + pose proof (quot_close (cond_Zopp s (Zpos m)) (2 ^ (- e)) ltac:(lia)) as Q.
      replace (IZR (2 ^ - e)) with (bpow radix2 (- e)) in Q by (symmetry; apply pow_bpow; lia).
      replace (bpow radix2 e) with (/ bpow radix2 (- e))%R by (rewrite bpow_opp, Rinv_inv; reflexivity). exact Q.
Qed.
Lemma velocity_spec b : ffin (fofbits b) = true -> (Rabs (fR (fofbits b)) <= 1000)%R ->
  exists v, velocity_field b = Some v /\ (Rabs (IZR v - fR (fofbits b) * 1000) <= 1 + / 32)%R.
Proof.
  intros F1 B. unfold velocity_field. set (x := fR (fofbits b)) in *. apply Rabs_le_inv in B.
  destruct (fofZ_spec 1000 0 ltac:(lia) ltac:(lia)) as [F2 R2]. change (bpow radix2 0) with 1%R in R2. rewrite Rmult_1_r in R2.
  destruct (fmul_spec (fofbits b) (fofZ 1000 0) F1 F2) as [F3 R3].
  { rewrite R2. fold x. apply Rabs_le. change (bpow radix2 100) with 1267650600228229401496703205376%R. lra. }
  rewrite R2 in R3. fold x in R3. destruct (ftrunc_spec _ F3) as (z & E & C). rewrite E. rewrite R3 in C.
  assert (Er : (Rabs (rnd32 (x * 1000) - x * 1000) <= bpow radix2 (20 - 25))%R).
  { apply rnd32_err; [lia|]. apply Rabs_lt. change (bpow radix2 20) with 1048576%R. lra. }
  change (bpow radix2 (20 - 25)) with (/ 32)%R in Er. apply Rabs_le_inv in Er. apply Rabs_lt_inv in C.
  assert (Hz : -1000003 < z < 1000003) by (split; apply lt_IZR; lra).
  destruct (Z.leb_spec (- 2 ^ 31) z); [|lia]. destruct (Z.ltb_spec z (2 ^ 31)); [|lia]. cbn [andb].
  exists z. split; [reflexivity|]. apply Rabs_le. lra.
Qed.
