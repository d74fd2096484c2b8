(** Proofs about the values NovAtel to SBP reports *)
From Coq Require Import Reals Lra.
From Flocq Require Import Core IEEE754.Binary IEEE754.Bits.
From Verif Require Import Base Double_model Double_proofs UbxObs_model UbxObs_proofs Esf_model Esf_proofs Ixcom_model Ixcom_float_proofs Signals_model Novatel_model NmeaFields_proofs SbpEph_model SbpEph_spec SbpEph_proofs Near_proofs Exact_proofs Pi_proofs NovSbp_model NovSbp_spec.
Open Scope R_scope.

(** ** saturating conversions *)
Lemma Rclamp_lip lo hi a b : Rabs (Rclamp lo hi a - Rclamp lo hi b) <= Rabs (a - b).
Proof.
  unfold Rclamp. assert (M : forall c x y, Rabs (Rmin c x - Rmin c y) <= Rabs (x - y)).
  { intros c x y. unfold Rmin. destruct (Rle_dec c x), (Rle_dec c y); unfold Rabs; repeat destruct Rcase_abs; lra. }
  assert (X : forall c x y, Rabs (Rmax c x - Rmax c y) <= Rabs (x - y)).
  { intros c x y. unfold Rmax. destruct (Rle_dec c x), (Rle_dec c y); unfold Rabs; repeat destruct Rcase_abs; lra. }
  eapply Rle_trans; [apply X|apply M].
Qed.
Lemma clampz_R lo hi z : (lo <= hi)%Z -> IZR (clampz lo hi z) = Rclamp lo hi (IZR z).
Proof.
  intros L. unfold clampz, Rclamp. apply IZR_le in L. destruct (Z.leb_spec z lo) as [A|A].
  - apply IZR_le in A. rewrite Rmin_right, Rmax_left by lra. reflexivity.
  - apply IZR_lt in A. destruct (Z.leb_spec hi z) as [B|B].
    + apply IZR_le in B. rewrite Rmin_left, Rmax_right by lra. reflexivity.
    + apply IZR_lt in B. rewrite Rmin_right, Rmax_right by lra. reflexivity.
Qed.
Lemma dsat_near lo hi x v e : (lo <= hi)%Z -> dfin x = true -> Rabs (dR x - v) <= e ->
  exists n, dsat lo hi x = Some n /\ (lo <= n <= hi)%Z /\ Rabs (IZR n - Rclamp lo hi v) <= / 2 + e.
Proof.
  intros L F B. destruct (proj2 (dint_fin zra x) F) as (z & Q). change (dint zra) with dround in Q.
  exists (clampz lo hi z). split; [|split].
  - unfold dsat. destruct x as [s|s|s pl H|s m ex H]; try discriminate F; rewrite Q; reflexivity.
  - unfold clampz. destruct (Z.leb_spec z lo); [lia|]. destruct (Z.leb_spec hi z); lia.
  - rewrite clampz_R by exact L. eapply Rle_trans; [apply Rclamp_lip|]. pose proof (dround_close _ _ Q) as C.
    replace (IZR z - v) with ((IZR z - dR x) + (dR x - v)) by ring. eapply Rle_trans; [apply Rabs_triang|]. lra.
Qed.
(** without saturation *)
Lemma dsat_in lo hi x v e : (lo < hi)%Z -> dfin x = true -> Rabs (dR x - v) <= e -> IZR lo <= v <= IZR hi ->
  exists n, dsat lo hi x = Some n /\ (lo <= n <= hi)%Z /\ rounds n v e.
Proof.
  intros L F B R. destruct (dsat_near lo hi x v e ltac:(lia) F B) as (n & E & N & C). exists n. split; [exact E|]. split; [exact N|]. unfold rounds.
  unfold Rclamp in C. rewrite Rmin_right, Rmax_right in C by lra. exact C.
Qed.
Lemma R32 v : Rabs v <= 2000000000 -> IZR (- 2 ^ 31) <= v <= IZR (2 ^ 31 - 1).
Proof. intros H. apply Rabs_le_inv in H. change (IZR (- 2 ^ 31)) with (-2147483648). change (IZR (2 ^ 31 - 1)) with 2147483647. lra. Qed.
Lemma micro x : dfin x = true -> Rabs (dR x) <= 360 -> exists n, sat32 (dmul x (dofZ 1000000)) = Some n /\ rounds n (1000000 * dR x) (/ 33554432).
Proof.
  intros F B. destruct (dofZ_exact 1000000 ltac:(lia)) as [G W].
  assert (P : Rabs (dR x * dR (dofZ 1000000)) <= 360000000) by (rewrite W, Rabs_mult, (Rabs_pos_eq 1000000) by lra; lra).
  destruct (mul_near x (dofZ 1000000) 29 F G ltac:(lia)) as [FM E]; [change (bpow radix2 29) with 536870912; lra|].
  rewrite W in E, P. rewrite (Rmult_comm (dR x)) in E, P. change (bpow radix2 (29 - 54)) with (/ 33554432) in E.
  destruct (dsat_in (- 2 ^ 31) (2 ^ 31 - 1) _ _ _ ltac:(lia) FM E) as (n & Q & _ & R); [apply R32; lra|]. exists n. split; assumption.
Qed.
Lemma milli x : dfin x = true -> Rabs (dR x) <= 10000 -> exists n, sat32 (dmul (dofZ 1000) x) = Some n /\ (- 2 ^ 31 < n)%Z /\ rounds n (1000 * dR x) (/ 1073741824).
Proof.
  intros F B. destruct (dofZ_exact 1000 ltac:(lia)) as [G W].
  assert (P : Rabs (dR (dofZ 1000) * dR x) <= 10000000) by (rewrite W, Rabs_mult, (Rabs_pos_eq 1000) by lra; lra).
  destruct (mul_near (dofZ 1000) x 24 G F ltac:(lia)) as [FM E]; [change (bpow radix2 24) with 16777216; lra|].
  rewrite W in E, P. change (bpow radix2 (24 - 54)) with (/ 1073741824) in E.
  destruct (dsat_in (- 2 ^ 31) (2 ^ 31 - 1) _ _ _ ltac:(lia) FM E) as (n & Q & N & R); [apply R32; lra|]. exists n. split; [exact Q|]. split; [|exact R].
  unfold rounds in R. apply Rabs_le_inv in R. apply Rabs_le_inv in P. apply lt_IZR. change (IZR (- 2 ^ 31)) with (-2147483648). lra.
Qed.
(** ** trigonometry *)
Lemma sin_abs x : Rabs (sin x) <= Rabs x.
Proof.
  assert (P : forall y, 0 < y -> Rabs (sin y) <= y).
  { intros y Y. pose proof (SIN_bound y) as [S1 S2]. pose proof (sin_lt_x y Y). apply Rabs_le. split; [|lra].
    destruct (Rle_dec y 1) as [L|L]; [|lra]. assert (0 <= sin y); [|lra]. apply sin_ge_0; [lra|]. pose proof PI_RGT_0. pose proof PI2_1. lra. }
  destruct (Rtotal_order x 0) as [L|[->|L]].
  - rewrite <- (Rabs_Ropp (sin x)), <- sin_neg, <- (Rabs_Ropp x). rewrite (Rabs_pos_eq (- x)) by lra. apply P. lra.
  - rewrite sin_0, Rabs_R0. lra.
  - rewrite (Rabs_pos_eq x) by lra. apply P. lra.
Qed.
Lemma cos_lip a b : Rabs (cos a - cos b) <= Rabs (a - b).
Proof.
  rewrite form2, !Rabs_mult. pose proof (sin_abs ((a - b) / 2)) as S. pose proof (SIN_bound ((a + b) / 2)) as [B1 B2].
  assert (T : Rabs (sin ((a + b) / 2)) <= 1) by (apply Rabs_le; lra).
  replace (Rabs (a - b)) with (2 * Rabs ((a - b) / 2)) by (unfold Rdiv; rewrite Rabs_mult, (Rabs_pos_eq (/ 2)) by lra; lra).
  replace (Rabs (-2)) with 2 by (rewrite Rabs_left by lra; lra). pose proof (Rabs_pos (sin ((a - b) / 2))). pose proof (Rabs_pos (sin ((a + b) / 2))). nra.
Qed.
Lemma sin_lip a b : Rabs (sin a - sin b) <= Rabs (a - b).
Proof.
  rewrite <- !cos_shift. eapply Rle_trans; [apply cos_lip|]. replace (PI / 2 - a - (PI / 2 - b)) with (- (a - b)) by ring. rewrite Rabs_Ropp. lra.
Qed.
Lemma rad_spec x : dfin x = true -> Rabs (dR x) <= 360 -> dfin (deg_to_rad x) = true /\ Rabs (dR (deg_to_rad x) - degrees (dR x)) <= / 500000000000000 /\ Rabs (dR (deg_to_rad x)) <= 13.
Proof.
  intros F B. unfold deg_to_rad. destruct d_pi_near as (e & EB & EV). destruct pi_val as [FP [P1 P2]]. apply Rabs_le_inv in B.
  assert (PI3 : 3 < PI < 32 / 10). { pose proof pi_close as Q. apply Rabs_le_inv in Q. lra. }
  assert (M : Rabs (dR x * dR d_pi) <= 1440) by (apply Rabs_le; nra).
  destruct (mul_near x d_pi 11 F FP ltac:(lia)) as [F1 E1]; [change (bpow radix2 11) with 2048; lra|].
  change (bpow radix2 (11 - 54)) with (/ 8796093022208) in E1. destruct (dofZ_exact 180 ltac:(lia)) as [FZ VZ].
  apply Rabs_le_inv in E1, M.
  assert (D : Rabs (dR (dmul x d_pi) / dR (dofZ 180)) <= 9) by (rewrite VZ; apply Rabs_le; lra).
  destruct (div_near (dmul x d_pi) (dofZ 180) 4 F1) as [F2 E2]; [rewrite VZ; lra|lia|change (bpow radix2 4) with 16; lra|].
  change (bpow radix2 (4 - 54)) with (/ 1125899906842624) in E2. rewrite VZ in E2, D. apply Rabs_le_inv in E2, D.
  split; [exact F2|]. split; [|apply Rabs_le; lra]. unfold degrees.
  assert (G : Rabs (dR x * dR d_pi - dR x * PI) <= 1200 * / 14000000000000000).
  { rewrite EV. replace (dR x * (PI * (1 + e)) - dR x * PI) with (dR x * PI * e) by ring. rewrite Rabs_mult. apply Rmult_le_compat; [apply Rabs_pos|apply Rabs_pos|apply Rabs_le; nra|exact EB]. }
  apply Rabs_le_inv in G. apply Rabs_le. lra.
Qed.
Lemma vel_spec tf g (hs trk : dbl) : accurate tf g -> (forall a b, Rabs (g a - g b) <= Rabs (a - b)) -> (forall a, Rabs (g a) <= 1) ->
  dfin hs = true -> Rabs (dR hs) <= 10000 -> dfin trk = true -> Rabs (dR trk) <= 360 ->
  exists n, sat32 (dmul (dmul (dofZ 1000) hs) (tf (deg_to_rad trk))) = Some n /\ rounds n (1000 * dR hs * g (degrees (dR trk))) (/ 10000000).
Proof.
  intros A L1 G1 FH BH FT BT. destruct (rad_spec trk FT BT) as (FR & ER & BR). destruct (A _ FR BR) as [FG EG].
  fold dfin in FG. change (is_finite 53 1024 (tf (deg_to_rad trk)) = true) with (dfin (tf (deg_to_rad trk)) = true) in FG.
  change (B2R 53 1024) with dR in EG. set (c := tf (deg_to_rad trk)) in *.
  assert (EC : Rabs (dR c - g (degrees (dR trk))) <= / 400000000000000).
  { replace (dR c - g (degrees (dR trk))) with ((dR c - g (dR (deg_to_rad trk))) + (g (dR (deg_to_rad trk)) - g (degrees (dR trk)))) by ring.
    eapply Rle_trans; [apply Rabs_triang|]. specialize (L1 (dR (deg_to_rad trk)) (degrees (dR trk))). lra. }
  specialize (G1 (degrees (dR trk))). set (v := g (degrees (dR trk))) in *. apply Rabs_le_inv in EC. assert (G1' := G1). apply Rabs_le_inv in G1'.
  destruct (dofZ_exact 1000 ltac:(lia)) as [G W].
  assert (P : Rabs (dR (dofZ 1000) * dR hs) <= 10000000) by (rewrite W, Rabs_mult, (Rabs_pos_eq 1000) by lra; lra).
  destruct (mul_near (dofZ 1000) hs 24 G FH ltac:(lia)) as [FM EM]; [change (bpow radix2 24) with 16777216; lra|].
  change (bpow radix2 (24 - 54)) with (/ 1073741824) in EM. rewrite W in EM, P. set (h := dR (dmul (dofZ 1000) hs)) in *.
  assert (HB : Rabs h <= 10000001). { replace h with ((h - 1000 * dR hs) + 1000 * dR hs) by ring. eapply Rle_trans; [apply Rabs_triang|]. lra. }
  assert (CB : Rabs (dR c) <= 2) by (apply Rabs_le; lra).
  assert (PB : Rabs (h * dR c) <= 20000002) by (rewrite Rabs_mult; pose proof (Rabs_pos h); pose proof (Rabs_pos (dR c)); nra).
  destruct (mul_near (dmul (dofZ 1000) hs) c 25 FM FG ltac:(lia)) as [F2 E2]; [fold h; change (bpow radix2 25) with 33554432; lra|].
  fold h in E2. change (bpow radix2 (25 - 54)) with (/ 536870912) in E2.
  assert (T : Rabs (dR (dmul (dmul (dofZ 1000) hs) c) - 1000 * dR hs * v) <= / 10000000).
  { replace (dR (dmul (dmul (dofZ 1000) hs) c) - 1000 * dR hs * v) with
      ((dR (dmul (dmul (dofZ 1000) hs) c) - h * dR c) + (h * (dR c - v) + (h - 1000 * dR hs) * v)) by ring.
    eapply Rle_trans; [apply Rabs_triang|]. eapply Rle_trans; [apply Rplus_le_compat_l, Rabs_triang|]. rewrite !Rabs_mult.
    assert (Rabs h * Rabs (dR c - v) <= 10000001 * / 400000000000000) by (apply Rmult_le_compat; [apply Rabs_pos|apply Rabs_pos|exact HB|apply Rabs_le; lra]).
    assert (Rabs (h - 1000 * dR hs) * Rabs v <= / 1073741824 * 1) by (apply Rmult_le_compat; [apply Rabs_pos|apply Rabs_pos|exact EM|exact G1]). lra. }
  destruct (dsat_in (- 2 ^ 31) (2 ^ 31 - 1) _ _ _ ltac:(lia) F2 T) as (n & Q & _ & R).
  - apply R32. rewrite Rabs_mult. pose proof (Rabs_pos v). pose proof (Rabs_pos (1000 * dR hs)). nra.
  - exists n. split; assumption.
Qed.
(** ** accuracies *)
Lemma f1000 : ffin (Esf_model.fofZ 1000 0) = true /\ fR (Esf_model.fofZ 1000 0) = 1000.
Proof. destruct (Esf_proofs.fofZ_spec 1000 0 ltac:(lia) ltac:(lia)) as [F V]. split; [exact F|]. rewrite V. change (bpow radix2 0) with 1. ring. Qed.
Lemma milli32 s : ffin s = true -> 0 <= fR s <= 65535 / 1000 -> ffin (fmul (Esf_model.fofZ 1000 0) s) = true /\ Rabs (fR (fmul (Esf_model.fofZ 1000 0) s) - 1000 * fR s) <= / 512 /\ 0 <= fR (fmul (Esf_model.fofZ 1000 0) s) <= 65535.
Proof.
  intros F B. destruct f1000 as [G W]. destruct (fmul_spec _ s G F) as [FM V].
  - rewrite W. apply Rabs_le. change (bpow radix2 100) with 1267650600228229401496703205376. lra.
  - rewrite W in V. split; [exact FM|]. rewrite V. split; [apply (rnd32_err _ 16); [lia|]; change (bpow radix2 16) with 65536; rewrite Rabs_pos_eq; lra|].
    assert (Z0 : rnd32 0 = 0) by (apply rnd32_id, generic_format_0).
    assert (Z1 : rnd32 65535 = 65535) by (apply rnd32_id; replace 65535 with (IZR 65535 * bpow radix2 0) by (change (bpow radix2 0) with 1; ring); apply int32_format; lia).
    split; [rewrite <- Z0|rewrite <- Z1]; apply rnd32_le; lra.
Qed.
Lemma acc16 x v : ffin x = true -> Rabs (fR x - v) <= / 512 -> 0 <= fR x <= 65535 -> exists n, float_to_u16 x = Some n /\ (0 <= n < 65536)%Z /\ rounds n v (/ 512).
Proof.
  intros F E B. destruct (UbxObs_proofs.dofflt_exact x F) as [G W]. change (B2R 24 128 x) with (fR x) in W. unfold float_to_u16.
  destruct (proj2 (dint_fin zra (dofflt x)) G) as (z & Q). change (dint zra) with dround in Q. rewrite Q. pose proof (dround_close _ _ Q) as C. rewrite W in C.
  assert (C' := C). apply Rabs_le_inv in C'. assert (0 <= z < 65536)%Z.
  { split; [|apply lt_IZR; lra]. apply Z.lt_succ_r. apply lt_IZR. rewrite succ_IZR. lra. }
  destruct (Z.leb_spec 0 z); [|lia]. destruct (Z.ltb_spec z 65536); [|lia]. cbn [andb]. exists z. split; [reflexivity|]. split; [lia|]. unfold rounds.
  replace (IZR z - v) with ((IZR z - fR x) + (fR x - v)) by ring. eapply Rle_trans; [apply Rabs_triang|]. lra.
Qed.
Lemma fin_notnan (x : binary32) : ffin x = true -> is_nan 24 128 x = false. Proof. destruct x; reflexivity || discriminate. Qed.
Lemma fmax_spec a b : ffin a = true -> ffin b = true -> ffin (fmaxf a b) = true /\ fR (fmaxf a b) = Rmax (fR a) (fR b).
Proof.
  intros A B. unfold fmaxf. rewrite !fin_notnan by assumption. rewrite (Bcompare_correct 24 128 a b A B). change (B2R 24 128) with fR.
  destruct (Rcompare_spec (fR a) (fR b)); (split; [assumption|]); [rewrite Rmax_right|rewrite Rmax_left|rewrite Rmax_left]; lra.
Qed.
Lemma Rmax_lip a b c d e : Rabs (a - c) <= e -> Rabs (b - d) <= e -> Rabs (Rmax a b - Rmax c d) <= e.
Proof. intros A B. apply Rabs_le_inv in A, B. apply Rabs_le. unfold Rmax. destruct (Rle_dec a b), (Rle_dec c d); lra. Qed.
(** ** ephemerides *)
Lemma ordinary_bpow v : ordinary v -> v = 0 \/ bpow radix2 (-110) <= Rabs v <= bpow radix2 90.
Proof. intros [H|[A B]]; [left; exact H|right]. rewrite pow_bpow in A, B by lia. change (-110)%Z with (- (110))%Z. rewrite bpow_opp. split; assumption. Qed.
Lemma single_spec x : dfin x = true -> ordinary (dR x) -> fclose (f32 x) (dR x).
Proof.
  intros F O. apply ordinary_bpow in O.
  destruct (f32_spec x F) as [G V]. { destruct O as [-> | [A B]]; [rewrite Rabs_R0; apply bpow_ge_0|]. eapply Rle_trans; [exact B|apply bpow_le; lia]. }
  split; [exact G|]. change (B2R 24 128 (f32 x)) with (fR (f32 x)). rewrite V.
  destruct (rnd32_near (dR x)) as (e & E & ->). { destruct O as [O|[A B]]; [left; exact O|right]. eapply Rle_trans; [|exact A]. apply bpow_le. lia. }
  replace (dR x * (1 + e) - dR x) with (e * dR x) by ring. rewrite Rabs_mult. apply Rmult_le_compat_r; [apply Rabs_pos|]. unfold u24 in E. lra.
Qed.
Lemma dsqrt_spec x : dfin x = true -> / IZR (2 ^ 110) <= dR x <= IZR (2 ^ 90) ->
  dfin (dsqrt x) = true /\ near (dR (dsqrt x)) (sqrt (dR x)) u53 /\ bpow radix2 (-60) <= sqrt (dR x) <= bpow radix2 50.
Proof.
  intros F [L U]. rewrite pow_bpow in L, U by lia. rewrite <- bpow_opp in L.
  assert (S : bpow radix2 (-60) <= sqrt (dR x) <= bpow radix2 50).
  { split.
    - rewrite <- (sqrt_square (bpow radix2 (-60))) by apply bpow_ge_0. apply sqrt_le_1_alt. rewrite <- bpow_plus. eapply Rle_trans; [|exact L]. apply bpow_le. lia.
    - rewrite <- (sqrt_square (bpow radix2 50)) by apply bpow_ge_0. apply sqrt_le_1_alt. rewrite <- bpow_plus. eapply Rle_trans; [exact U|]. apply bpow_le. lia. }
  pose proof (Bsqrt_correct 53 1024 eq_refl eq_refl unop_nan_pl64 mode_NE x) as (V & FI & _).
  assert (V' : dR (dsqrt x) = rnd (sqrt (dR x))) by exact V.
  split; [|split; [|exact S]].
  - unfold dfin, dsqrt, b64_sqrt. rewrite FI. destruct x as [s|s|s pl H|s m e H]; try discriminate F; [reflexivity|]. destruct s; [|reflexivity]. exfalso.
    pose proof (bpow_gt_0 radix2 (- (110))) as G. assert (dR (B754_finite 53 1024 true m e H) < 0); [|lra]. unfold dR, B2R. apply F2R_lt_0. reflexivity.
  - rewrite V'. apply rnd_near. right. pose proof (bpow_ge_0 radix2 (-60)). rewrite Rabs_pos_eq by lra.
    split; [eapply Rle_trans; [|apply S]; apply bpow_le; lia|eapply Rle_trans; [apply S|]; apply bpow_le; lia].
Qed.
Lemma ura_spec x : dfin x = true -> / IZR (2 ^ 110) <= dR x <= IZR (2 ^ 90) -> fclose (f32 (dsqrt x)) (sqrt (dR x)).
Proof.
  intros F B. destruct (dsqrt_spec x F B) as (G & N & S). pose proof (bpow_gt_0 radix2 (-60)).
  assert (NA := near_abs _ _ _ N ltac:(unfold u53; lra)). rewrite (Rabs_pos_eq (sqrt (dR x))) in NA by lra.
  assert (L : bpow radix2 (-120) <= Rabs (dR (dsqrt x))).
  { eapply Rle_trans; [|apply NA]. apply Rle_trans with (bpow radix2 (-60) / 2); [|lra]. replace (bpow radix2 (-60) / 2) with (bpow radix2 (-61)) by (change (-61)%Z with (-60 + -1)%Z; rewrite bpow_plus; reflexivity). apply bpow_le. lia. }
  assert (U : Rabs (dR (dsqrt x)) <= bpow radix2 100).
  { eapply Rle_trans; [apply NA|]. apply Rle_trans with (2 * bpow radix2 50); [lra|]. change 2 with (bpow radix2 1). rewrite <- bpow_plus. apply bpow_le. lia. }
  destruct (f32_spec _ G U) as [FF V]. split; [exact FF|]. change (B2R 24 128 (f32 (dsqrt x))) with (fR (f32 (dsqrt x))). rewrite V.
  destruct (near_trans _ _ _ _ _ (rnd32_near _ (or_intror L)) N) as (e & E & ->).
  replace (sqrt (dR x) * (1 + e) - sqrt (dR x)) with (e * sqrt (dR x)) by ring. rewrite Rabs_mult. apply Rmult_le_compat_r; [apply Rabs_pos|]. unfold u24, u53 in E. lra.
Qed.
Lemma cu32_spec x : dfin x = true -> 0 <= dR x < 4294967296 -> exists n, cu32 x = Some n /\ IZR n <= dR x < IZR n + 1.
Proof.
  intros F B. unfold cu32. rewrite dtrunc_spec by exact F. destruct (trunc_nonneg (dR x) (proj1 B)) as [T N].
  destruct (Z.leb_spec 0 (Ztrunc (dR x))); [|lia]. destruct (Z.ltb_spec (Ztrunc (dR x)) (2 ^ 32)) as [U|U]; [eexists; split; [reflexivity|exact T]|].
  exfalso. apply IZR_le in U. change (IZR (2 ^ 32)) with 4294967296 in U. lra.
Qed.
