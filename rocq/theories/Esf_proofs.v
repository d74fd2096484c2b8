(** Floating-point facts about the ESF times and scalings. *)
From Coq Require Import Reals Lra.
From Flocq Require Import Core IEEE754.Binary IEEE754.Bits.
From Verif Require Import Base Double_model Double_proofs UbxObs_model UbxObs_proofs UbxVar_model Esf_model.
Open Scope Z_scope.

Lemma dltb_spec x y : dfin x = true -> dfin y = true -> dltb x y = Rlt_bool (dR x) (dR y).
Proof.
  intros Fx Fy. unfold dltb. rewrite (Bcompare_correct 53 1024 x y Fx Fy). unfold dR, Rlt_bool.
  destruct (Rcompare_spec (B2R 53 1024 x) (B2R 53 1024 y)); reflexivity.
Qed.

(** subtracting a week is exact *)
Lemma week_exact x : generic_format radix2 (FLT_exp (-1074) 53) x -> (604800 <= x < bpow radix2 53)%R -> rnd (x - 604800) = (x - 604800)%R.
Proof.
  intros G [L U]. apply rnd_id.
  assert (X0 : (x <> 0)%R) by lra.
  pose proof (canonical_generic_format radix2 (FLT_exp (-1074) 53) x G) as (f & Hf & Hc).
  set (e := cexp radix2 (FLT_exp (-1074) 53) x) in *.
  assert (M1 : (20 <= mag radix2 x)%Z) by (apply mag_ge_bpow; rewrite Rabs_pos_eq by lra; change (bpow radix2 (20 - 1)) with 524288%R; lra).
  assert (M2 : (mag radix2 x <= 53)%Z) by (apply mag_le_bpow; [exact X0|]; rewrite Rabs_pos_eq; lra).
  assert (Ee : e = mag radix2 x - 53) by (unfold e, cexp, FLT_exp; lia).
  destruct f as [m e']. cbn [Fexp Fnum] in *. unfold canonical in Hc. cbn [Fexp] in Hc. rewrite <- Hf in Hc. fold e in Hc. subst e'.
  assert (W : 604800%R = F2R (Float radix2 (4725 * 2 ^ (7 - e)) e)).
  { unfold F2R. cbn [Fnum Fexp]. rewrite mult_IZR, pow_bpow by lia. rewrite Rmult_assoc, <- bpow_plus.
    replace (7 - e + e) with 7 by lia. change (bpow radix2 7) with 128%R. lra. }
  apply generic_format_FLT. exists (Float radix2 (m - 4725 * 2 ^ (7 - e)) e); cbn [Fnum Fexp].
  - rewrite W. rewrite Hf at 1. unfold F2R. cbn [Fnum Fexp]. rewrite minus_IZR. ring.
  - assert (P : (0 <= 4725 * 2 ^ (7 - e))%Z) by (apply Z.mul_nonneg_nonneg; [lia|apply Z.pow_nonneg; lia]).
    assert (D : (0 <= m - 4725 * 2 ^ (7 - e))%Z).
    { assert (Q : (F2R (Float radix2 (4725 * 2 ^ (7 - e)) e) <= F2R (Float radix2 m e))%R) by (rewrite <- W, <- Hf; exact L).
      apply le_F2R in Q. lia. }
    assert (Q : (m < 2 ^ 53)%Z).
    { assert (Hm : (x < bpow radix2 (mag radix2 x))%R) by (pose proof (bpow_mag_gt radix2 x) as B; rewrite Rabs_pos_eq in B by lra; exact B).
      rewrite Hf in Hm at 1. unfold F2R in Hm. cbn [Fnum Fexp] in Hm. apply lt_IZR. rewrite pow_bpow by lia.
      apply Rmult_lt_reg_r with (bpow radix2 e); [apply bpow_gt_0|]. rewrite <- bpow_plus. replace (53 + e) with (mag radix2 x : Z) by lia. exact Hm. }
    change (Z.pow_pos 2 53) with (2 ^ 53). change (radix_val radix2) with 2. rewrite Z.abs_eq by exact D. lia.
  - lia.
Qed.
Lemma norm_down_spec n : forall x, dfin x = true -> (0 <= dR x < bpow radix2 53)%R -> (dR x < 604800 * IZR (Z.of_nat n))%R ->
  dfin (norm_down n x) = true /\ (0 <= dR (norm_down n x) < 604800)%R /\ exists k, 0 <= k /\ dR (norm_down n x) = (dR x - 604800 * IZR k)%R.
Proof.
  destruct (dofZ_exact 604800 ltac:(lia)) as [FW RW].
  induction n as [|n IH]; intros x Fx B N.
  - exfalso. change (IZR (Z.of_nat 0)) with 0%R in N. lra.
  - cbn [norm_down]. rewrite dltb_spec by assumption. rewrite RW. destruct (Rlt_bool_spec (dR x) 604800) as [L|L].
    + split; [exact Fx|]. split; [lra|]. exists 0. split; [lia|]. lra.
    + destruct (dsub_spec x (dofZ 604800) Fx FW) as [F1 R1].
      { rewrite RW, Rabs_pos_eq by lra. apply Rle_trans with (bpow radix2 53); [lra | apply bpow_le; lia]. }
      rewrite RW, week_exact in R1 by (try apply dR_format; lra).
      rewrite Nat2Z.inj_succ, succ_IZR in N.
      destruct (IH _ F1 ltac:(lra) ltac:(lra)) as (F2 & B2 & k & K & E).
      split; [exact F2|]. split; [exact B2|]. exists (k + 1). split; [lia|]. rewrite plus_IZR. lra.
Qed.
Lemma norm_week_spec x : dfin x = true -> (0 <= dR x < bpow radix2 53)%R ->
  dfin (norm_week x) = true /\ (0 <= dR (norm_week x) < 604800)%R /\ exists k, 0 <= k /\ dR (norm_week x) = (dR x - 604800 * IZR k)%R.
Proof.
  intros Fx B. unfold norm_week, norm_up. destruct (dofZ_exact 0 ltac:(lia)) as [F0 R0]. rewrite dltb_spec by assumption. rewrite R0.
  rewrite Rlt_bool_false by lra. cbv zeta. rewrite dfloor_spec by exact Fx. apply norm_down_spec; [exact Fx|exact B|].
  pose proof (floor_bounds (dR x)) as FB. set (z := Zfloor (dR x)) in *.
  assert (0 <= z) by (unfold z; rewrite <- (Zfloor_IZR 0); apply Zfloor_le; lra).
  assert (P : (z + 1 <= 604800 * (z / 604800 + 1))%Z) by lia.
  rewrite Z2Nat.id by lia. apply IZR_le in P. rewrite mult_IZR, plus_IZR in P. lra.
Qed.
(** slightly negative times (IMU samples of the first 50 ms) wrap to the end of the week, up to one rounding *)
Lemma norm_week_neg x : dfin x = true -> (-1 < dR x < 0)%R ->
  dfin (norm_week x) = true /\ (0 <= dR (norm_week x) < 604800)%R /\
  exists k, -1 <= k <= 0 /\ (Rabs (dR (norm_week x) - (dR x - 604800 * IZR k)) <= bpow radix2 (-34))%R.
Proof.
  intros Fx B. unfold norm_week, norm_up. destruct (dofZ_exact 0 ltac:(lia)) as [F0 R0]. rewrite dltb_spec by assumption. rewrite R0.
  rewrite Rlt_bool_true by lra. cbv zeta. destruct (dofZ_exact 604800 ltac:(lia)) as [FW RW].
  destruct (dadd_spec x (dofZ 604800) Fx FW) as [F1 R1].
  { rewrite RW, Rabs_pos_eq by lra. apply Rle_trans with (bpow radix2 53); [change (bpow radix2 53) with 9007199254740992%R; lra | apply bpow_le; lia]. }
  rewrite RW in R1. set (y := dadd x (dofZ 604800)) in *.
  assert (B1 : (604799 <= dR y <= 604800)%R) by (rewrite R1; split; [apply (rnd_ge_z _ 604799)|apply (rnd_le_z _ 604800)]; try lia; lra).
  assert (E1 : (Rabs (dR y - (dR x + 604800)) <= bpow radix2 (20 - 54))%R) by (rewrite R1; apply (rnd_err _ 20); [lia|]; rewrite Rabs_pos_eq by lra; change (bpow radix2 20) with 1048576%R; lra).
  rewrite dfloor_spec by exact F1.
  pose proof (floor_bounds (dR y)) as FB. set (z := Zfloor (dR y)) in *.
  assert (0 <= z) by (unfold z; rewrite <- (Zfloor_IZR 0); apply Zfloor_le; lra).
  destruct (norm_down_spec (Z.to_nat (z / 604800 + 1)) y F1) as (F2 & B2 & k & K & E).
  { change (bpow radix2 53) with 9007199254740992%R. lra. }
  { assert (P : (z + 1 <= 604800 * (z / 604800 + 1))%Z) by lia. rewrite Z2Nat.id by lia. apply IZR_le in P. rewrite mult_IZR, plus_IZR in P. lra. }
  split; [exact F2|]. split; [exact B2|]. exists (k - 1). split.
  - assert (k < 2)%Z by (apply lt_IZR; lra). lia.
  - rewrite E, minus_IZR. change (20 - 54) with (-34) in E1. replace (dR y - 604800 * IZR k - (dR x - 604800 * (IZR k - 1)))%R with (dR y - (dR x + 604800))%R by ring. exact E1.
Qed.

(** the exact value of a finite literal *)
Definition dme (x : dbl) : option (Z * Z) :=
  match x with B754_finite _ _ s m e _ => Some (cond_Zopp s (Zpos m), e) | _ => None end.
Lemma dme_spec x m e : dme x = Some (m, e) -> dfin x = true /\ dR x = (IZR m * bpow radix2 e)%R.
Proof. destruct x; cbn [dme]; intros H; try discriminate. injection H as <- <-. split; reflexivity. Qed.
Lemma milli_val : dfin d_milli = true /\ dR d_milli = (4611686018427388 / 4611686018427387904)%R.
Proof.
  destruct (dme_spec d_milli 4611686018427388 (-62) ltac:(vm_compute; reflexivity)) as [F R]. split; [exact F|]. rewrite R.
  change (bpow radix2 (-62)) with (/ 4611686018427387904)%R. lra.
Qed.
Lemma tick_val : dfin d_tick = true /\ dR d_tick = (5764607523034235 / 147573952589676412928)%R.
Proof.
  destruct (dme_spec d_tick 5764607523034235 (-67) ltac:(vm_compute; reflexivity)) as [F R]. split; [exact F|]. rewrite R.
  change (bpow radix2 (-67)) with (/ 147573952589676412928)%R. lra.
Qed.
Lemma offset_val : dfin d_offset = true /\ (Rabs (dR d_offset - 0.05) <= / 288230376151711744)%R /\ (0 < dR d_offset)%R.
Proof.
  destruct (dme_spec d_offset 7205759403792794 (-57) ltac:(vm_compute; reflexivity)) as [F R]. split; [exact F|]. rewrite R.
  change (bpow radix2 (-57)) with (/ 144115188075855872)%R. split; [apply Rabs_le|]; lra.
Qed.
(** seconds since start-up of a millisecond count *)
Lemma secs_spec m : 0 <= m < 2 ^ 40 -> dfin (dmul d_milli (dofZ m)) = true /\
  (0 <= dR (dmul d_milli (dofZ m)) <= 2147483648)%R /\ (Rabs (dR (dmul d_milli (dofZ m)) - IZR m / 1000) <= / 5000000)%R.
Proof.
  intros H. destruct milli_val as [Fc Rc]. destruct (dofZ_exact m ltac:(lia)) as [Fm Rm].
  assert (M : (0 <= IZR m <= 1099511627776)%R) by (split; apply IZR_le; lia).
  destruct (dmul_spec d_milli (dofZ m) Fc Fm) as [F1 R1].
  { rewrite Rc, Rm, Rabs_pos_eq by lra. apply Rle_trans with (bpow radix2 53); [change (bpow radix2 53) with 9007199254740992%R; lra | apply bpow_le; lia]. }
  rewrite Rc, Rm in R1.
  assert (E1 : (Rabs (dR (dmul d_milli (dofZ m)) - 4611686018427388 / 4611686018427387904 * IZR m) <= bpow radix2 (31 - 54))%R).
  { rewrite R1. apply (rnd_err _ 31); [lia|]. rewrite Rabs_pos_eq by lra. change (bpow radix2 31) with 2147483648%R. lra. }
  change (bpow radix2 (31 - 54)) with (/ 8388608)%R in E1. apply Rabs_le_inv in E1.
  split; [exact F1|]. split.
  - rewrite R1. split; [apply (rnd_ge_z _ 0)|apply (rnd_le_z _ 2147483648)]; try lia; lra.
  - apply Rabs_le. lra.
Qed.
(** scaling a time of week to an integer unit and truncating gives the exact count or one less *)
Lemma scale_time w m k q : dfin w = true -> (0 <= dR w < 604800)%R -> q = 1000 \/ q = 1000000 ->
  (Rabs (dR w - (IZR m / 1000 - 604800 * IZR k)) <= / 5000000)%R ->
  exists t, dtrunc (dmul w (dofZ q)) = Some t /\ 0 <= t <= 604800 * q /\ exists d, 0 <= d <= 1 /\ t = m * (q / 1000) - 604800 * q * k - d.
Proof.
  intros F B Q E. destruct (dofZ_exact q ltac:(lia)) as [Fq Rq].
  assert (QR : (1000 <= IZR q <= 1000000)%R) by (split; apply IZR_le; lia).
  destruct (dmul_spec w (dofZ q) F Fq) as [F1 R1].
  { rewrite Rq, Rabs_pos_eq by nra. apply Rle_trans with (bpow radix2 53); [change (bpow radix2 53) with 9007199254740992%R; nra | apply bpow_le; lia]. }
  rewrite Rq in R1.
  assert (E1 : (Rabs (dR (dmul w (dofZ q)) - dR w * IZR q) <= bpow radix2 (40 - 54))%R).
  { rewrite R1. apply (rnd_err _ 40); [lia|]. rewrite Rabs_pos_eq by nra. change (bpow radix2 40) with 1099511627776%R. nra. }
  change (bpow radix2 (40 - 54)) with (/ 16384)%R in E1. apply Rabs_le_inv in E1. apply Rabs_le_inv in E.
  assert (B1 : (0 <= dR (dmul w (dofZ q)) <= IZR (604800 * q))%R).
  { rewrite R1. split; [apply (rnd_ge_z _ 0)|apply rnd_le_z]; try lia; [nra|]. rewrite mult_IZR. nra. }
  rewrite dtrunc_spec by exact F1. destruct (trunc_nonneg _ (proj1 B1)) as [T1 T2].
  set (v := dR (dmul w (dofZ q))) in *. set (t := Ztrunc v) in *.
  exists t. split; [reflexivity|]. split; [split; [exact T2|apply le_IZR; lra]|].
  set (x := m * (q / 1000) - 604800 * q * k).
  assert (X : IZR x = (IZR q * (IZR m / 1000 - 604800 * IZR k))%R).
  { unfold x. rewrite minus_IZR, !mult_IZR. destruct Q as [-> | ->]; [change (1000 / 1000) with 1 | change (1000000 / 1000) with 1000]; field. }
  assert (V : (Rabs (v - IZR x) < 1 / 2)%R) by (rewrite X; apply Rabs_lt; nra).
  apply Rabs_lt_inv in V.
  assert (t < x + 1) by (apply lt_IZR; rewrite plus_IZR; lra).
  assert (x - 2 < t) by (apply lt_IZR; rewrite minus_IZR; lra).
  exists (x - t). split; lia.
Qed.
Lemma odo_tow_spec m : 0 <= m < 2 ^ 40 -> exists t, odo_tow m = Some t /\ 0 <= t <= 604800000 /\ exists d k, 0 <= d <= 1 /\ m = t + d + 604800000 * k.
Proof.
  intros H. destruct (secs_spec m H) as (F & B & E). destruct (norm_week_spec _ F) as (F2 & B2 & k & K & E2).
  { change (bpow radix2 53) with 9007199254740992%R. lra. }
  destruct (scale_time _ m k 1000 F2 B2 ltac:(lia)) as (t & T1 & T2 & d & D & T3).
  { rewrite E2. replace (dR (dmul d_milli (dofZ m)) - 604800 * IZR k - (IZR m / 1000 - 604800 * IZR k))%R with (dR (dmul d_milli (dofZ m)) - IZR m / 1000)%R by ring. exact E. }
  unfold odo_tow, to_u32. rewrite T1. exists t. replace ((0 <=? t) && (t <? 2 ^ 32)) with true by lia. split; [reflexivity|]. split; [lia|].
  exists d, k. split; [exact D|]. change (1000 / 1000) with 1 in T3. lia.
Qed.
Lemma wheel_time_spec m : 0 <= m < 2 ^ 40 -> exists t, wheel_time m = Some t /\ 0 <= t <= 604800000000 /\ exists d k, 0 <= d <= 1 /\ m * 1000 = t + d + 604800000000 * k.
Proof.
  intros H. destruct (secs_spec m H) as (F & B & E). destruct (norm_week_spec _ F) as (F2 & B2 & k & K & E2).
  { change (bpow radix2 53) with 9007199254740992%R. lra. }
  destruct (scale_time _ m k 1000000 F2 B2 ltac:(lia)) as (t & T1 & T2 & d & D & T3).
  { rewrite E2. replace (dR (dmul d_milli (dofZ m)) - 604800 * IZR k - (IZR m / 1000 - 604800 * IZR k))%R with (dR (dmul d_milli (dofZ m)) - IZR m / 1000)%R by ring. exact E. }
  unfold wheel_time, to_u64. rewrite T1. exists t. replace ((0 <=? t) && (t <? 2 ^ 64)) with true by lia. split; [reflexivity|]. split; [lia|].
  exists d, k. split; [exact D|]. change (1000000 / 1000) with 1000 in T3. lia.
Qed.

(** * IMU sample times *)
Lemma frac_exact x : dfin x = true -> (0 <= dR x)%R -> Ztrunc (dR x) <= 2 ^ 53 ->
  rnd (dR x - IZR (Ztrunc (dR x))) = (dR x - IZR (Ztrunc (dR x)))%R /\
  rnd ((dR x - IZR (Ztrunc (dR x))) * 256) = ((dR x - IZR (Ztrunc (dR x))) * 256)%R.
Proof.
  intros F P Big. pose proof (dR_format x) as G. apply FLT_format_generic in G; [|exact prec53]. destruct G as [[m e] Hx Hm He]. cbn [Fnum Fexp] in *.
  rewrite Ztrunc_floor in * by exact P. 
  assert (M0 : 0 <= m) by (rewrite Hx in P; apply ge_0_F2R in P; exact P).
  change (Z.pow_pos 2 53) with (2 ^ 53) in Hm. change (radix_val radix2) with 2 in Hm. rewrite Z.abs_eq in Hm by exact M0.
  destruct (Z.le_gt_cases 0 e) as [Pe|Ne].
  - rewrite Hx, F2R_pos by exact Pe. rewrite Zfloor_IZR. replace (IZR (m * 2 ^ e) - IZR (m * 2 ^ e))%R with 0%R by ring.
    rewrite Rmult_0_l. split; apply rnd_id, generic_format_0.
  - assert (FL : Zfloor (dR x) = m / 2 ^ (- e)) by (rewrite Hx, F2R_neg by exact Ne; apply Zfloor_div; lia).
    assert (PW : 0 < 2 ^ (- e)) by lia.
    assert (D : (dR x - IZR (Zfloor (dR x)) = F2R (Float radix2 (m mod 2 ^ (- e)) e))%R).
    { rewrite FL. rewrite Hx. rewrite !F2R_neg by exact Ne. rewrite Z.mod_eq by lia. rewrite minus_IZR, mult_IZR. field.
      apply not_0_IZR. lia. }
    pose proof (Z.mod_pos_bound m (2 ^ (- e)) PW) as MB. pose proof (Z.mod_le m (2 ^ (- e)) M0 PW) as ML.
    rewrite D. split; apply rnd_id, generic_format_FLT.
    + exists (Float radix2 (m mod 2 ^ (- e)) e); [reflexivity| |exact He]. cbn [Fnum]. change (radix_val radix2) with 2. change (Z.pow_pos 2 53) with (2 ^ 53). lia.
    + exists (Float radix2 (m mod 2 ^ (- e)) (e + 8)); cbn [Fnum Fexp]; [| |lia].
      * unfold F2R. cbn [Fnum Fexp]. rewrite bpow_plus. change (bpow radix2 8) with 256%R. ring.
      * change (radix_val radix2) with 2. change (Z.pow_pos 2 53) with (2 ^ 53). lia.
Qed.
Lemma norm_week_any x : dfin x = true -> (-1 < dR x < bpow radix2 53)%R ->
  dfin (norm_week x) = true /\ (0 <= dR (norm_week x) < 604800)%R /\
  exists k, (Rabs (dR (norm_week x) - (dR x - 604800 * IZR k)) <= / 17179869184)%R.
Proof.
  intros F [B1 B2]. destruct (Rlt_dec (dR x) 0) as [N|N].
  - destruct (norm_week_neg x F ltac:(lra)) as (H1 & H2 & k & _ & H3). split; [exact H1|]. split; [exact H2|]. exists k. exact H3.
  - destruct (norm_week_spec x F ltac:(lra)) as (H1 & H2 & k & _ & H3). split; [exact H1|]. split; [exact H2|]. exists k. rewrite H3.
    replace (dR x - 604800 * IZR k - (dR x - 604800 * IZR k))%R with 0%R by ring. rewrite Rabs_R0. lra.
Qed.
Ltac big53 := apply Rle_trans with (bpow radix2 53); [change (bpow radix2 53) with 9007199254740992%R; lra | apply bpow_le; lia].
Lemma imu_raw_secs m d : 0 <= m < 2 ^ 40 -> 0 <= d < 2 ^ 31 ->
  let x := dsub (dadd (dmul d_tick (dofZ d)) (dmul d_milli (dofZ m))) d_offset in
  dfin x = true /\ (-1 < dR x < 4294967296)%R /\ (Rabs (dR x - (IZR m / 1000 + IZR d * 0.0000390625 - 0.05)) <= 0.0000008)%R.
Proof.
  intros Hm Hd. destruct (secs_spec m Hm) as (Fs & Bs & Es). set (s := dmul d_milli (dofZ m)) in *.
  destruct tick_val as [Ft Rt]. destruct offset_val as (Fo & Eo & Po). destruct (dofZ_exact d ltac:(lia)) as [Fd Rd].
  assert (D : (0 <= IZR d <= 2147483648)%R) by (split; apply IZR_le; lia).
  assert (M : (0 <= IZR m <= 1099511627776)%R) by (split; apply IZR_le; lia).
  destruct (dmul_spec d_tick (dofZ d) Ft Fd) as [F1 R1]. { rewrite Rt, Rd, Rabs_pos_eq by lra. big53. }
  rewrite Rt, Rd in R1.
  assert (E1 : (Rabs (dR (dmul d_tick (dofZ d)) - 5764607523034235 / 147573952589676412928 * IZR d) <= bpow radix2 (17 - 54))%R).
  { rewrite R1. apply (rnd_err _ 17); [lia|]. rewrite Rabs_pos_eq by lra. change (bpow radix2 17) with 131072%R. lra. }
  change (bpow radix2 (17 - 54)) with (/ 137438953472)%R in E1. apply Rabs_le_inv in E1, Es, Eo.
  set (a := dmul d_tick (dofZ d)) in *.
  assert (B1 : (0 <= dR a)%R) by (rewrite R1; apply (rnd_ge_z _ 0); [lia|]; lra).
  destruct (dadd_spec a s F1 Fs) as [F2 R2]. { rewrite Rabs_pos_eq by lra. big53. }
  assert (E2 : (Rabs (dR (dadd a s) - (dR a + dR s)) <= bpow radix2 (31 - 54))%R).
  { rewrite R2. apply (rnd_err _ 31); [lia|]. rewrite Rabs_pos_eq by lra. change (bpow radix2 31) with 2147483648%R. lra. }
  assert (B2 : (0 <= dR (dadd a s))%R) by (rewrite R2; apply (rnd_ge_z _ 0); [lia|]; lra).
  change (bpow radix2 (31 - 54)) with (/ 8388608)%R in E2. apply Rabs_le_inv in E2. set (b := dadd a s) in *.
  destruct (dsub_spec b d_offset F2 Fo) as [F3 R3]. { apply Rabs_le. split; [|]. - apply Rle_trans with (-1)%R; [|lra]. assert (1 <= bpow radix2 1000)%R by (rewrite <- bp0; apply bpow_le; lia). lra. - big53. }
  assert (E3 : (Rabs (dR (dsub b d_offset) - (dR b - dR d_offset)) <= bpow radix2 (31 - 54))%R).
  { rewrite R3. apply (rnd_err _ 31); [lia|]. apply Rabs_lt. change (bpow radix2 31) with 2147483648%R. lra. }
  change (bpow radix2 (31 - 54)) with (/ 8388608)%R in E3. apply Rabs_le_inv in E3.
  cbv zeta. split; [exact F3|]. split; [lra|]. apply Rabs_le. lra.
Qed.
Lemma imu_time_spec m d : 0 <= m < 2 ^ 40 -> 0 <= d < 2 ^ 31 -> exists t f k, imu_time m d = Some (t + 2 ^ 30, f) /\
  0 <= t <= 604800000 /\ 0 <= f <= 255 /\
  (-(1/256) - 0.001 <= IZR t + IZR f / 256 - (IZR m + IZR d * 0.0390625 - 50 - 604800000 * IZR k) <= 0.001)%R.
Proof.
  intros Hm Hd. destruct (imu_raw_secs m d Hm Hd) as (F0 & B0 & E0). cbv zeta in F0, B0, E0.
  unfold imu_time, imu_secs. set (x := dsub (dadd (dmul d_tick (dofZ d)) (dmul d_milli (dofZ m))) d_offset) in *.
  destruct (norm_week_any x F0) as (F1 & B1 & k & E1). { change (bpow radix2 53) with 9007199254740992%R. lra. }
  set (w := norm_week x) in *. destruct (dofZ_exact 1000 ltac:(lia)) as [F2 R2]. cbv zeta.
  destruct (dmul_spec w (dofZ 1000) F1 F2) as [F3 R3]. { rewrite R2, Rabs_pos_eq by lra. big53. }
  rewrite R2 in R3. set (ms := dmul w (dofZ 1000)) in *.
  assert (E3 : (Rabs (dR ms - dR w * 1000) <= bpow radix2 (30 - 54))%R).
  { rewrite R3. apply (rnd_err _ 30); [lia|]. rewrite Rabs_pos_eq by lra. change (bpow radix2 30) with 1073741824%R. lra. }
  change (bpow radix2 (30 - 54)) with (/ 16777216)%R in E3.
  assert (B3 : (0 <= dR ms <= 604800000)%R) by (rewrite R3; split; [apply (rnd_ge_z _ 0)|apply (rnd_le_z _ 604800000)]; try lia; lra).
  destruct (trunc_nonneg (dR ms) ltac:(lra)) as [T1 T2]. unfold to_u32 at 1. rewrite dtrunc_spec by exact F3. 
  assert (T3 : Ztrunc (dR ms) <= 604800000) by (apply le_IZR; lra).
  destruct (frac_exact ms F3 ltac:(lra) ltac:(lia)) as [X1 X2]. set (t := Ztrunc (dR ms)) in *.
  replace ((0 <=? t) && (t <? 2 ^ 32)) with true by lia.
  destruct (dofZ_exact t ltac:(lia)) as [F4 R4]. destruct (dofZ_exact 256 ltac:(lia)) as [F5 R5].
  destruct (dsub_spec ms (dofZ t) F3 F4) as [F6 R6]. { rewrite R4, Rabs_pos_eq by lra. big53. }
  rewrite R4, X1 in R6.
  destruct (dmul_spec (dsub ms (dofZ t)) (dofZ 256) F6 F5) as [F7 R7]. { rewrite R5, R6, Rabs_pos_eq by lra. big53. }
  rewrite R5, R6, X2 in R7. unfold to_u32. rewrite dtrunc_spec by exact F7. rewrite R7.
  destruct (trunc_nonneg ((dR ms - IZR t) * 256) ltac:(lra)) as [U1 U2]. set (f := Ztrunc ((dR ms - IZR t) * 256)) in *.
  assert (U3 : f < 256) by (apply lt_IZR; lra).
  replace ((0 <=? f) && (f <? 2 ^ 32)) with true by lia. exists t, f, k.
  rewrite Z.mod_small by lia. apply Rabs_le_inv in E0, E1, E3.
  split; [|split; [lia|split; [lia|]]].
  - do 2 f_equal. change (2 ^ 30) with (Z.shiftl 1 30). rewrite Z.lor_comm, lor_shiftl_add by lia. change (Z.shiftl 1 30) with (2 ^ 30). lia.
  - lra.
Qed.

(** * single precision scaling of the inertial samples *)
Definition rnd32 (x : R) : R := round radix2 (FLT_exp (-149) 24) ZnearestE x.
Definition fR (x : binary32) : R := B2R 24 128 x.
Definition ffin (x : binary32) : bool := is_finite 24 128 x.
#[local] Instance prec24 : Prec_gt_0 24 := eq_refl.
Lemma int32_format m e : Z.abs m < 2 ^ 24 -> -149 <= e -> generic_format radix2 (FLT_exp (-149) 24) (IZR m * bpow radix2 e).
Proof.
  intros H He. apply generic_format_FLT. exists (Float radix2 m e); [reflexivity| |exact He]. cbn [Fnum]. change (radix_val radix2) with 2. change (Z.pow_pos 2 24) with (2 ^ 24). exact H.
Qed.
Lemma rnd32_le x y : (x <= y)%R -> (rnd32 x <= rnd32 y)%R. Proof. intros. apply round_le; try typeclasses eauto. assumption. Qed.
Lemma rnd32_id x : generic_format radix2 (FLT_exp (-149) 24) x -> rnd32 x = x.
Proof. intros. apply round_generic; [typeclasses eauto | assumption]. Qed.
Lemma rnd32_bound x : (Rabs x <= bpow radix2 100)%R -> (Rabs (rnd32 x) < bpow radix2 128)%R.
Proof.
  intros H. apply Rle_lt_trans with (bpow radix2 100); [|apply bpow_lt; lia]. apply abs_round_le_generic; try typeclasses eauto; [|exact H].
  apply generic_format_bpow. unfold FLT_exp. lia.
Qed.
Lemma fofZ_spec m e : Z.abs m < 2 ^ 24 -> -149 <= e <= 0 -> ffin (fofZ m e) = true /\ fR (fofZ m e) = (IZR m * bpow radix2 e)%R.
Proof.
  intros H He. pose proof (binary_normalize_correct 24 128 eq_refl eq_refl mode_NE m e false) as N.
  change (F2R (Float radix2 m e)) with (IZR m * bpow radix2 e)%R in N. rewrite Rlt_bool_true in N.
  - destruct N as (N1 & N2 & _). split; [exact N2|]. unfold fR, fofZ. rewrite N1. apply rnd32_id, int32_format; lia.
  - apply rnd32_bound. rewrite Rabs_mult, (Rabs_pos_eq (bpow radix2 e)) by apply bpow_ge_0. rewrite <- abs_IZR.
    apply Rle_trans with (bpow radix2 24 * bpow radix2 0)%R.
    + apply Rmult_le_compat; [apply IZR_le; lia|apply bpow_ge_0| |apply bpow_le; lia].
      replace (bpow radix2 24) with (IZR (2 ^ 24)) by (apply pow_bpow; lia). apply IZR_le. lia.
    + rewrite <- bpow_plus. apply bpow_le. lia.
Qed.
Lemma fdiv_spec x y : ffin x = true -> fR y <> 0%R -> (Rabs (fR x / fR y) <= bpow radix2 100)%R ->
  ffin (fdiv x y) = true /\ fR (fdiv x y) = rnd32 (fR x / fR y).
Proof.
  intros Fx Hy Hb. pose proof (Bdiv_correct 24 128 eq_refl eq_refl binop_nan_pl32 mode_NE x y Hy) as H.
  rewrite Rlt_bool_true in H.
  - destruct H as (H1 & H2 & _). split; [|exact H1]. unfold ffin, fdiv, b32_div. cbv zeta. rewrite H2. exact Fx.
  - apply rnd32_bound. exact Hb.
Qed.
Lemma fltb_spec x y : ffin x = true -> ffin y = true -> fltb x y = Rlt_bool (fR x) (fR y).
Proof.
  intros Fx Fy. unfold fltb. rewrite (Bcompare_correct 24 128 x y Fx Fy). unfold fR, Rlt_bool.
  destruct (Rcompare_spec (B2R 24 128 x) (B2R 24 128 y)); reflexivity.
Qed.
Lemma fround_close x : ffin x = true -> exists z, fround x = Some z /\ (Rabs (IZR z - fR x) <= / 2)%R.
Proof.
  destruct x; intros F; try discriminate; cbn [fround].
  - exists 0. split; [reflexivity|]. unfold fR. cbn [B2R]. rewrite Rminus_0_r, Rabs_R0. lra.
  - eexists. split; [reflexivity|]. apply zra_close.
Qed.
Lemma rnd32_err x k : -124 <= k -> (Rabs x < bpow radix2 k)%R -> (Rabs (rnd32 x - x) <= bpow radix2 (k - 25))%R.
Proof.
  intros Hk Hx. destruct (Req_dec x 0) as [->|Hn].
  - unfold rnd32. rewrite round_0 by typeclasses eauto. rewrite Rminus_0_r, Rabs_R0. apply bpow_ge_0.
  - eapply Rle_trans; [apply error_le_half_ulp; typeclasses eauto|].
    rewrite ulp_neq_0 by assumption. unfold cexp.
    assert (Hm : (mag radix2 x <= k)%Z) by (apply mag_le_bpow; assumption).
    replace (bpow radix2 (k - 25)) with (/ 2 * bpow radix2 (k - 24))%R
      by (replace (k - 24) with (1 + (k - 25)) by lia; rewrite bpow_plus; change (bpow radix2 1) with 2%R; field).
    apply Rmult_le_compat_l; [lra|]. apply bpow_le. unfold FLT_exp. lia.
Qed.
(** q limited to the s16 range *)
Definition clamp16 (q : R) : R := Rmax (-32768) (Rmin 32767 q).
Lemma clamp_spec x : ffin x = true -> forall q, fR x = rnd32 q ->
  -32768 <= float_to_s16_clamped x <= 32767 /\ (Rabs (IZR (float_to_s16_clamped x) - clamp16 q) <= / 2 + / 512)%R.
Proof.
  intros F q E. unfold float_to_s16_clamped.
  destruct (fofZ_spec (-32768) 0 ltac:(lia) ltac:(lia)) as [FL RL]. destruct (fofZ_spec 32767 0 ltac:(lia) ltac:(lia)) as [FU RU].
  change (bpow radix2 0) with 1%R in RL, RU. rewrite Rmult_1_r in RL, RU. rewrite !fltb_spec by assumption. rewrite RL, RU.
  assert (IL : rnd32 (-32768) = (-32768)%R) by (apply rnd32_id; replace (-32768)%R with (IZR (-32768) * bpow radix2 0)%R by (change (bpow radix2 0) with 1%R; ring); apply int32_format; lia).
  assert (IU : rnd32 32767 = 32767%R) by (apply rnd32_id; replace (32767)%R with (IZR (32767) * bpow radix2 0)%R by (change (bpow radix2 0) with 1%R; ring); apply int32_format; lia).
  assert (IP : rnd32 65536 = 65536%R) by (apply rnd32_id; replace (65536)%R with (IZR (65536) * bpow radix2 0)%R by (change (bpow radix2 0) with 1%R; ring); apply int32_format; lia).
  assert (IN : rnd32 (-65536) = (-65536)%R) by (apply rnd32_id; replace (-65536)%R with (IZR (-65536) * bpow radix2 0)%R by (change (bpow radix2 0) with 1%R; ring); apply int32_format; lia).
  unfold clamp16. destruct (Rlt_bool_spec (fR x) (-32768)) as [L|L].
  - split; [lia|]. assert (q < -32768)%R by (destruct (Rlt_le_dec q (-32768)) as [A|A]; [exact A|]; apply rnd32_le in A; rewrite IL in A; lra).
    rewrite Rmin_right by lra. rewrite Rmax_left by lra. rewrite Rminus_diag_eq by reflexivity. rewrite Rabs_R0. lra.
  - destruct (Rlt_bool_spec 32767 (fR x)) as [U|U].
    + split; [lia|]. assert (32767 < q)%R by (destruct (Rlt_le_dec 32767 q) as [A|A]; [exact A|]; apply rnd32_le in A; rewrite IU in A; lra).
      rewrite Rmin_left by lra. rewrite Rmax_right by lra. rewrite Rminus_diag_eq by reflexivity. rewrite Rabs_R0. lra.
    + destruct (fround_close x F) as (z & -> & Z). apply Rabs_le_inv in Z.
      assert (Q1 : (q < 65536)%R) by (destruct (Rlt_le_dec q 65536) as [A|A]; [exact A|]; apply rnd32_le in A; rewrite IP in A; lra).
      assert (Q2 : (-65536 < q)%R) by (destruct (Rlt_le_dec (-65536) q) as [A|A]; [exact A|]; apply rnd32_le in A; rewrite IN in A; lra).
      assert (Er : (Rabs (rnd32 q - q) <= bpow radix2 (16 - 25))%R) by (apply rnd32_err; [lia|]; apply Rabs_lt; change (bpow radix2 16) with 65536%R; lra).
      change (bpow radix2 (16 - 25)) with (/ 512)%R in Er. apply Rabs_le_inv in Er. rewrite <- E in Er.
      split.
      * assert (-32769 < z) by (apply lt_IZR; lra). assert (z < 32768) by (apply lt_IZR; lra). lia.
      * apply Rabs_le. destruct (Rle_dec q 32767) as [A|A]; [rewrite Rmin_right by lra | rewrite Rmin_left by lra];
        (destruct (Rle_dec (-32768) q) as [B|B]; [rewrite Rmax_right by lra | try rewrite Rmax_left by lra]); lra.
Qed.
Definition fme (x : binary32) : option (Z * Z) :=
  match x with B754_finite _ _ s m e _ => Some (cond_Zopp s (Zpos m), e) | _ => None end.
Lemma fme_spec x m e : fme x = Some (m, e) -> ffin x = true /\ fR x = (IZR m * bpow radix2 e)%R.
Proof. destruct x; cbn [fme]; intros H; try discriminate. injection H as <- <-. split; reflexivity. Qed.
Lemma scale_gyr_spec v : Z.abs v <= 2 ^ 23 -> -32768 <= scale_gyr v <= 32767 /\
  (Rabs (IZR (scale_gyr v) - clamp16 (IZR v * 8 / 125)) <= / 2 + / 512)%R.
Proof.
  intros H. unfold scale_gyr. destruct (fofZ_spec v (-12) ltac:(lia) ltac:(lia)) as [F1 R1].
  destruct (fme_spec (fofbits 0x3b7a0000) 16384000 (-32) ltac:(vm_compute; reflexivity)) as [F2 R2].
  change (bpow radix2 (-12)) with (/ 4096)%R in R1. change (bpow radix2 (-32)) with (/ 4294967296)%R in R2.
  assert (Q : (fR (fofZ v (-12)) / fR (fofbits 0x3b7a0000) = IZR v * 8 / 125)%R) by (rewrite R1, R2; field).
  assert (V : (-8388608 <= IZR v <= 8388608)%R) by (split; apply IZR_le; lia).
  destruct (fdiv_spec (fofZ v (-12)) (fofbits 0x3b7a0000) F1) as [F3 R3].
  - rewrite R2. lra.
  - rewrite Q. apply Rabs_le. change (bpow radix2 100) with 1267650600228229401496703205376%R. lra.
  - apply clamp_spec; [exact F3|]. rewrite R3, Q. reflexivity.
Qed.
Lemma clamp_lip a b : (Rabs (clamp16 a - clamp16 b) <= Rabs (a - b))%R.
Proof.
  unfold clamp16, Rmax, Rmin. repeat destruct Rle_dec; unfold Rabs; repeat destruct Rcase_abs; lra.
Qed.
Lemma scale_acc_spec v : Z.abs v <= 2 ^ 23 -> -32768 <= scale_acc v <= 32767 /\
  (Rabs (IZR (scale_acc v) - clamp16 (IZR v * 8 / 9.80665)) <= / 2 + / 128)%R.
Proof.
  intros H. unfold scale_acc. destruct (fofZ_spec v (-10) ltac:(lia) ltac:(lia)) as [F1 R1].
  destruct (fme_spec (fofbits 0x3a9ce80a) 10283018 (-33) ltac:(vm_compute; reflexivity)) as [F2 R2].
  change (bpow radix2 (-10)) with (/ 1024)%R in R1. change (bpow radix2 (-33)) with (/ 8589934592)%R in R2.
  assert (Q : (fR (fofZ v (-10)) / fR (fofbits 0x3a9ce80a) = IZR v * 8388608 / 10283018)%R) by (rewrite R1, R2; field).
  assert (V : (-8388608 <= IZR v <= 8388608)%R) by (split; apply IZR_le; lia).
  destruct (fdiv_spec (fofZ v (-10)) (fofbits 0x3a9ce80a) F1) as [F3 R3].
  - rewrite R2. lra.
  - rewrite Q. apply Rabs_le. change (bpow radix2 100) with 1267650600228229401496703205376%R. lra.
  - rewrite Q in R3. destruct (clamp_spec _ F3 _ R3) as [C1 C2]. split; [exact C1|].
    set (z := IZR (float_to_s16_clamped (fdiv (fofZ v (-10)) (fofbits 981264394)))) in *.
    assert (L : (Rabs (clamp16 (IZR v * 8388608 / 10283018) - clamp16 (IZR v * 8 / 9.80665)) <= / 200)%R).
    { destruct (Rlt_dec 80000 (IZR v)) as [A|A]; [|destruct (Rlt_dec (IZR v) (-80000)) as [B|B]].
      - unfold clamp16. rewrite !(Rmin_left 32767) by lra. rewrite Rminus_diag_eq by reflexivity. rewrite Rabs_R0. lra.
      - unfold clamp16. rewrite !(Rmin_right 32767) by lra. rewrite !Rmax_left by lra. rewrite Rminus_diag_eq by reflexivity. rewrite Rabs_R0. lra.
      - eapply Rle_trans; [apply clamp_lip|]. apply Rabs_le. lra. }
    apply Rabs_le_inv in C2, L. apply Rabs_le. lra.
Qed.
Lemma centi_val : dfin d_centi = true /\ dR d_centi = (5764607523034235 / 576460752303423488)%R.
Proof.
  destruct (dme_spec d_centi 5764607523034235 (-59) ltac:(vm_compute; reflexivity)) as [F R]. split; [exact F|]. rewrite R.
  change (bpow radix2 (-59)) with (/ 576460752303423488)%R. lra.
Qed.
Definition clamp_temp (q : R) : R := Rmax (-32767) (Rmin 32767 q).
Lemma aux_temp_spec v : Z.abs v <= 2 ^ 23 -> -32767 <= aux_temp (Some v) <= 32767 /\
  (Rabs (IZR (aux_temp (Some v)) - clamp_temp ((IZR v / 100 - 23) * 512)) <= 1.001)%R.
Proof.
  intros H. unfold aux_temp, temp_to_bmi160. destruct centi_val as [Fc Rc]. destruct (dofZ_exact v ltac:(lia)) as [Fv Rv].
  assert (V : (-8388608 <= IZR v <= 8388608)%R) by (split; apply IZR_le; lia).
  assert (B1000 : (9007199254740992 <= bpow radix2 1000)%R) by (change 9007199254740992%R with (bpow radix2 53); apply bpow_le; lia).
  destruct (dmul_spec d_centi (dofZ v) Fc Fv) as [F1 R1]. { rewrite Rc, Rv. apply Rabs_le. lra. }
  rewrite Rc, Rv in R1. set (x := dmul d_centi (dofZ v)) in *.
  assert (E1 : (Rabs (dR x - 5764607523034235 / 576460752303423488 * IZR v) <= bpow radix2 (17 - 54))%R).
  { rewrite R1. apply (rnd_err _ 17); [lia|]. apply Rabs_lt. change (bpow radix2 17) with 131072%R. lra. }
  change (bpow radix2 (17 - 54)) with (/ 137438953472)%R in E1. apply Rabs_le_inv in E1.
  destruct (dme_spec (dofbits 0x4055bfe000000000) 6121943304503296 (-46) ltac:(vm_compute; reflexivity)) as [FH RH].
  destruct (dme_spec (dofbits 0xc0447fc000000000) (-5769962144661504) (-47) ltac:(vm_compute; reflexivity)) as [FL RL].
  change (bpow radix2 (-46)) with (/ 70368744177664)%R in RH. change (bpow radix2 (-47)) with (/ 140737488355328)%R in RL.
  rewrite !dltb_spec by assumption. unfold clamp_temp.
  destruct (Rlt_bool_spec (dR x) (dR (dofbits 4635822360241373184))) as [A|A]; cbn [negb].
  2: { rewrite RH in A. split; [lia|]. rewrite Rmax_right by (unfold Rmin; destruct Rle_dec; lra). unfold Rmin. destruct Rle_dec; apply Rabs_le; lra. }
  destruct (Rlt_bool_spec (dR (dofbits 13854338816308936704)) (dR x)) as [B|B]; cbn [negb].
  2: { rewrite RL in B. split; [lia|]. rewrite Rmin_right by lra. unfold Rmax. destruct Rle_dec; apply Rabs_le; lra. }
  rewrite RH in A. rewrite RL in B.
  destruct (dofZ_exact 23 ltac:(lia)) as [F23 R23]. destruct (dofZ_exact 512 ltac:(lia)) as [F512 R512].
  destruct (dsub_spec x (dofZ 23) F1 F23) as [F2 R2]. { rewrite R23. apply Rabs_le. lra. }
  rewrite R23 in R2.
  assert (E2 : (Rabs (dR (dsub x (dofZ 23)) - (dR x - 23)) <= bpow radix2 (7 - 54))%R).
  { rewrite R2. apply (rnd_err _ 7); [lia|]. apply Rabs_lt. change (bpow radix2 7) with 128%R. lra. }
  change (bpow radix2 (7 - 54)) with (/ 140737488355328)%R in E2. apply Rabs_le_inv in E2.
  destruct (dmul_spec (dsub x (dofZ 23)) (dofZ 512) F2 F512) as [F3 R3]. { rewrite R512. apply Rabs_le. lra. }
  rewrite R512 in R3. set (y := dmul (dsub x (dofZ 23)) (dofZ 512)) in *.
  assert (E3 : (Rabs (dR y - dR (dsub x (dofZ 23)) * 512) <= bpow radix2 (16 - 54))%R).
  { rewrite R3. apply (rnd_err _ 16); [lia|]. apply Rabs_lt. change (bpow radix2 16) with 65536%R. lra. }
  change (bpow radix2 (16 - 54)) with (/ 274877906944)%R in E3. apply Rabs_le_inv in E3.
  rewrite dtrunc_spec by exact F3.
  assert (T : (Rabs (IZR (Ztrunc (dR y)) - dR y) <= 1)%R /\ -32767 <= Ztrunc (dR y) <= 32767).
  { destruct (Rle_dec 0 (dR y)) as [P|P].
    - destruct (trunc_nonneg _ P) as [T1 T2]. split; [apply Rabs_le; lra|]. split; [lia|]. assert (Ztrunc (dR y) < 32768) by (apply lt_IZR; lra). lia.
    - assert (P' : (0 <= - dR y)%R) by lra. destruct (trunc_nonneg _ P') as [T1 T2]. rewrite Ztrunc_opp, opp_IZR in T1. rewrite Ztrunc_opp in T2.
      split; [apply Rabs_le; lra|]. split; [|lia]. assert (-32768 < Ztrunc (dR y)) by (apply lt_IZR; lra). lia. }
  destruct T as [T1 T2]. split; [exact T2|]. apply Rabs_le_inv in T1.
  unfold Rmax, Rmin. repeat destruct Rle_dec; apply Rabs_le; lra.
Qed.
