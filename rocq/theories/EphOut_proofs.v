From Coq Require Import Reals Lra.
From Flocq Require Import Core IEEE754.Binary IEEE754.Bits.
From Verif Require Import Base Double_model Double_proofs UbxObs_model UbxObs_proofs Esf_model Esf_proofs Ixcom_model Ixcom_float_proofs Tables_model
  RtcmStation_spec RtcmEph_model RtcmEph_spec SbpEph_model SbpEph_spec Near_proofs Pi_proofs SbpEph_proofs Abs_proofs EphOut_model EphOut_spec.
Open Scope R_scope.

(** a double that stands for the unit u *)
Definition unitlike (y : dbl) (u : R) : Prop := dfin y = true /\ 0 < u /\ Rabs (dR y - u) <= u * / 4503599627370496.
Lemma unitlike_div x y u : unitlike y u -> dfin x = true -> Rabs (dR x / u) <= 274877906944 -> ab (ddiv x y) (dR x / u) (/ 5000).
Proof.
  intros (FY & U & D) FX B. apply Rabs_le_inv in D. set (t := dR y / u). assert (T : 1 - / 4503599627370496 <= t <= 1 + / 4503599627370496).
  { unfold t. split; [apply Rmult_le_reg_r with u; [exact U|]|apply Rmult_le_reg_r with u; [exact U|]]; unfold Rdiv; rewrite Rmult_assoc, Rinv_l, Rmult_1_r by lra; lra. }
  assert (Y : dR y = t * u) by (unfold t; field; lra). assert (NZ : dR y <> 0) by (rewrite Y; apply Rmult_integral_contrapositive; split; lra).
  set (v := dR x / u) in *. assert (E : dR x / dR y = v / t) by (rewrite Y; unfold v; field; split; lra).
  assert (Q : Rabs (v / t - v) <= / 8000).
  { replace (v / t - v) with (v * ((1 - t) / t)) by (field; lra). rewrite Rabs_mult. apply Rle_trans with (274877906944 * (2 * / 4503599627370496)); [|lra].
    apply Rmult_le_compat; [apply Rabs_pos|apply Rabs_pos|exact B|]. unfold Rdiv. rewrite Rabs_mult. apply Rle_trans with (/ 4503599627370496 * 2); [|lra].
    apply Rmult_le_compat; [apply Rabs_pos|apply Rabs_pos|apply Rabs_le; lra|]. rewrite Rabs_pos_eq by (apply Rlt_le, Rinv_0_lt_compat; lra).
    replace 2 with (/ / 2) by field. apply Rinv_le_contravar; lra. }
  assert (S : Rabs (v / t) <= 274877906945). { replace (v / t) with ((v / t - v) + v) by ring. eapply Rle_trans; [apply Rabs_triang|]. lra. }
  destruct (ddiv_spec x y FX NZ) as [F V].
  - rewrite E. eapply Rle_trans; [exact S|]. apply Rle_trans with (bpow radix2 60); [change (bpow radix2 60) with 1152921504606846976; lra|apply bpow_le; lia].
  - split; [exact F|]. rewrite V, E. pose proof (rnd_err (v / t) 39 ltac:(lia)) as R. assert (Rabs (v / t) < bpow radix2 39) as K by (change (bpow radix2 39) with 549755813888; lra).
    specialize (R K). change (39 - 54)%Z with (-15)%Z in R. change (bpow radix2 (-15)) with (/ 32768) in R.
    replace (rnd (v / t) - v) with ((rnd (v / t) - v / t) + (v / t - v)) by ring. eapply Rle_trans; [apply Rabs_triang|]. lra.
Qed.
Lemma conv_ab lo hi lo' hi' x v : ab x v (/ 5000) -> IZR lo' <= v <= IZR hi' -> (lo <= lo')%Z -> (hi' < hi)%Z ->
  exists n, conv lo hi x = Some n /\ (lo' <= n <= hi')%Z /\ Rabs (IZR n - v) <= / 2 + / 5000.
Proof.
  intros A B L H. destruct (ab_round _ _ _ A) as (n & E & D). exists n. assert (R : (lo' <= n <= hi')%Z).
  { apply Rabs_le_inv in D. split; apply Z.lt_succ_r, lt_IZR; rewrite succ_IZR; lra. }
  split; [|split; [exact R|exact D]]. unfold conv. rewrite E. destruct (Z.leb_spec lo n); [|lia]. destruct (Z.ltb_spec n hi); [reflexivity|lia].
Qed.
Lemma conv_unit lo hi lo' hi' x y u : unitlike y u -> dfin x = true -> IZR lo' <= dR x / u <= IZR hi' -> (lo <= lo')%Z -> (hi' < hi)%Z ->
  (- 4294967296 <= lo')%Z -> (hi' <= 4294967296)%Z ->
  exists n, conv lo hi (ddiv x y) = Some n /\ (lo' <= n <= hi')%Z /\ Rabs (IZR n - dR x / u) <= / 2 + / 5000.
Proof.
  intros U F B L H L1 H1. apply conv_ab; [|exact B|exact L|exact H]. apply unitlike_div; [exact U|exact F|]. apply IZR_le in L1. apply IZR_le in H1. apply Rabs_le. lra.
Qed.
Lemma pi_pos : 3 < PI < 4. Proof. pose proof pi_close as H. apply Rabs_le_inv in H. lra. Qed.

Section U.
Variables (c : Z -> dbl) (C : consts_exact c).
Lemma unit_c k : (5 <= k <= 66)%Z -> unitlike (c k) (unit2 k).
Proof. intros K. destruct (C k K) as [F V]. pose proof (bpow_gt_0 radix2 (- k)) as P. unfold unit2. split; [exact F|]. split; [exact P|]. rewrite V, Rminus_diag_eq, Rabs_R0 by reflexivity. lra. Qed.
Lemma d_pi_val : dfin d_pi = true /\ dR d_pi = 7074237752028440 / 2251799813685248.
Proof.
  destruct (dme_spec d_pi 7074237752028440 (-51) ltac:(vm_compute; reflexivity)) as [F V]. split; [exact F|]. rewrite V. change (bpow radix2 (-51)) with (/ 2251799813685248). reflexivity.
Qed.
Lemma unit_pi k : (5 <= k <= 66)%Z -> unitlike (dmul (c k) d_pi) (semic k).
Proof.
  intros K. destruct (C k K) as [F V]. destruct d_pi_val as [FP VP]. pose proof (bpow_gt_0 radix2 (- k)) as P. pose proof pi_pos as PP.
  destruct (dmul_spec (c k) d_pi F FP) as [FM VM].
  { rewrite V, VP, Rabs_pos_eq by (apply Rmult_le_pos; lra). apply Rle_trans with (bpow radix2 0 * bpow radix2 2).
    - apply Rmult_le_compat; [lra|lra|apply bpow_le; lia|change (bpow radix2 2) with 4; lra].
    - rewrite <- bpow_plus. apply bpow_le. lia. }
  assert (E : dR (dmul (c k) d_pi) = bpow radix2 (- k) * (7074237752028440 / 2251799813685248)).
  { rewrite VM, V, VP. apply rnd_id. replace (bpow radix2 (- k) * (7074237752028440 / 2251799813685248)) with (F2R (Float radix2 7074237752028440 (- k - 51))).
    - apply generic_format_F2R. intros _. unfold cexp, FLT_exp. rewrite mag_F2R by discriminate. cbn [Fexp].
      replace (mag radix2 (IZR 7074237752028440) : Z) with 53%Z; [lia|]. symmetry. apply mag_unique. rewrite Rabs_pos_eq by lra. change (bpow radix2 (53 - 1)) with 4503599627370496. change (bpow radix2 53) with 9007199254740992. lra.
    - unfold F2R. cbn [Fnum Fexp]. replace (- k - 51)%Z with (- k + -51)%Z by lia. rewrite bpow_plus. change (bpow radix2 (-51)) with (/ 2251799813685248). field. }
  split; [exact FM|]. unfold semic. split; [apply Rmult_lt_0_compat; lra|]. rewrite E, <- Rmult_minus_distr_l, Rabs_mult, (Rabs_pos_eq (bpow radix2 (- k))) by lra.
  rewrite Rmult_assoc. apply Rmult_le_compat_l; [lra|]. pose proof pi_close as PC. rewrite Rabs_minus_sym. lra.
Qed.
Lemma unit_ns : unitlike d_1em10 tenth_ns.
Proof.
  destruct (dme_spec d_1em10 7737125245533627 (-86) ltac:(vm_compute; reflexivity)) as [F V]. split; [exact F|]. unfold tenth_ns. split; [lra|].
  rewrite V. change (bpow radix2 (-86)) with (/ 77371252455336267181195264). apply Rabs_le. lra.
Qed.
End U.

(** n is the number of units u nearest to v *)
Definition nr (n : Z) (u v : R) : Prop := Rabs (IZR n - v / u) <= / 2 + / 5000.
Lemma fin_flt x : is_finite 24 128 x = true -> dfin (dofflt x) = true /\ dR (dofflt x) = fv x.
Proof. intros F. destruct (dofflt_dexact x (fv x)) as [A B]; [split; [exact F|reflexivity]|]. split; [exact A|exact B]. Qed.
(** the four kinds of field *)
Lemma d_field lo hi n y u x : unitlike y u -> dsfit n u x -> (1 <= n <= 32)%Z -> (lo <= - 2 ^ (n - 1))%Z -> (2 ^ (n - 1) - 1 < hi)%Z ->
  exists z, conv lo hi (ddiv x y) = Some z /\ sbits n z /\ nr z u (dv x).
Proof.
  intros U [F B] N L H. assert (P : (2 ^ (n - 1) <= 2 ^ 31)%Z) by (apply Z.pow_le_mono_r; lia). assert (0 < 2 ^ (n - 1))%Z by (apply Z.pow_pos_nonneg; lia).
  destruct (conv_unit lo hi (- 2 ^ (n - 1)) (2 ^ (n - 1) - 1) x y u U F B L H ltac:(lia) ltac:(lia)) as (z & E & R & Q). exists z. split; [exact E|]. split; [unfold sbits; lia|exact Q].
Qed.
Lemma u_field lo hi n y u x : unitlike y u -> dufit n u x -> (1 <= n <= 32)%Z -> (lo <= 0)%Z -> (2 ^ n - 1 < hi)%Z ->
  exists z, conv lo hi (ddiv x y) = Some z /\ ubits n z /\ nr z u (dv x).
Proof.
  intros U [F B] N L H. assert (P : (2 ^ n <= 2 ^ 32)%Z) by (apply Z.pow_le_mono_r; lia). assert (0 < 2 ^ n)%Z by (apply Z.pow_pos_nonneg; lia).
  destruct (conv_unit lo hi 0 (2 ^ n - 1) x y u U F B L H ltac:(lia) ltac:(lia)) as (z & E & R & Q). exists z. split; [exact E|]. split; [unfold ubits; lia|exact Q].
Qed.
Lemma f_field lo hi n y u x : unitlike y u -> fsfit n u x -> (1 <= n <= 32)%Z -> (lo <= - 2 ^ (n - 1))%Z -> (2 ^ (n - 1) - 1 < hi)%Z ->
  exists z, conv lo hi (ddiv (dofflt x) y) = Some z /\ sbits n z /\ nr z u (fv x).
Proof.
  intros U [F B] N L H. destruct (fin_flt x F) as [FD V]. destruct (d_field lo hi n y u (dofflt x) U) as (z & E & R & Q); [|exact N|exact L|exact H|].
  - split; [exact FD|]. unfold dv. fold (dR (dofflt x)). rewrite V. exact B.
  - exists z. split; [exact E|]. split; [exact R|]. unfold nr in *. rewrite <- V. exact Q.
Qed.
Lemma fm_field lo hi n y u x : unitlike y u -> fmfit n u x -> (1 <= n <= 32)%Z -> (lo <= - (2 ^ (n - 1) - 1))%Z -> (2 ^ (n - 1) - 1 < hi)%Z ->
  exists z, conv lo hi (ddiv (dofflt x) y) = Some z /\ smag n z /\ nr z u (fv x).
Proof.
  intros U [F B] N L H. destruct (fin_flt x F) as [FD V]. assert (P : (2 ^ (n - 1) <= 2 ^ 31)%Z) by (apply Z.pow_le_mono_r; lia). assert (0 < 2 ^ (n - 1))%Z by (apply Z.pow_pos_nonneg; lia).
  destruct (conv_unit lo hi (- (2 ^ (n - 1) - 1)) (2 ^ (n - 1) - 1) (dofflt x) y u U FD ltac:(rewrite V; exact B) L H ltac:(lia) ltac:(lia)) as (z & E & R & Q).
  exists z. split; [exact E|]. split; [unfold smag; lia|]. unfold nr. rewrite <- V. exact Q.
Qed.
(** kilometres: two divisions *)
Lemma ab_km x y k : unitlike y (unit2 k) -> dfin x = true -> Rabs (dR x / kilo k) <= 134217728 -> ab (ddiv (ddiv x y) (dofZ 1000)) (dR x / kilo k) (/ 5000).
Proof.
  intros U F B. assert (P : 0 < unit2 k) by apply bpow_gt_0. assert (E : dR x / kilo k = dR x / unit2 k / 1000) by (unfold kilo, unit2 in *; field; lra).
  assert (B' : Rabs (dR x / unit2 k) <= 134217728000).
  { rewrite E in B. unfold Rdiv at 1 in B. rewrite Rabs_mult, (Rabs_pos_eq (/ 1000)) in B by lra. lra. }
  rewrite E. eapply (ab_div 28 134217728000 (/ 1000)).
  - apply unitlike_div; [exact U|exact F|lra].
  - apply ab_Z. lia.
  - lia.
  - exact B'.
  - lra.
  - lra.
  - lra.
  - change (bpow radix2 28) with 268435456. lra.
  - change (bpow radix2 (28 - 54)) with (/ 67108864). lra.
Qed.
Lemma km_field lo hi n y k x : unitlike y (unit2 k) -> dmfit n (kilo k) x -> (1 <= n <= 27)%Z -> (lo <= - (2 ^ (n - 1) - 1))%Z -> (2 ^ (n - 1) - 1 < hi)%Z ->
  exists z, conv lo hi (ddiv (ddiv x y) (dofZ 1000)) = Some z /\ smag n z /\ nr z (kilo k) (dv x).
Proof.
  intros U [F B] N L H. assert (P : (2 ^ (n - 1) <= 2 ^ 26)%Z) by (apply Z.pow_le_mono_r; lia). assert (0 < 2 ^ (n - 1))%Z by (apply Z.pow_pos_nonneg; lia).
  destruct (conv_ab lo hi (- (2 ^ (n - 1) - 1)) (2 ^ (n - 1) - 1) (ddiv (ddiv x y) (dofZ 1000)) (dR x / kilo k)) as (z & E & R & Q); [|exact B|exact L|exact H|].
  - apply ab_km; [exact U|exact F|]. unfold mfit in B. destruct B as [B1 B2]. assert (Q1 := IZR_le (- 134217728) (- (2 ^ (n - 1) - 1)) ltac:(lia)). assert (Q2 := IZR_le (2 ^ (n - 1) - 1) 134217728 ltac:(lia)).
    unfold dv in B1, B2. fold (dR x) in B1, B2. apply Rabs_le. lra.
  - exists z. split; [exact E|]. split; [unfold smag; lia|exact Q].
Qed.
Lemma fkm_field lo hi n y k x : unitlike y (unit2 k) -> fmfit n (kilo k) x -> (1 <= n <= 27)%Z -> (lo <= - (2 ^ (n - 1) - 1))%Z -> (2 ^ (n - 1) - 1 < hi)%Z ->
  exists z, conv lo hi (ddiv (ddiv (dofflt x) y) (dofZ 1000)) = Some z /\ smag n z /\ nr z (kilo k) (fv x).
Proof.
  intros U [F B] N L H. destruct (fin_flt x F) as [FD V]. destruct (km_field lo hi n y k (dofflt x) U) as (z & E & R & Q); [|exact N|exact L|exact H|].
  - split; [exact FD|]. unfold dv. fold (dR (dofflt x)). rewrite V. exact B.
  - exists z. split; [exact E|]. split; [exact R|]. unfold nr, dv in *. fold (dR (dofflt x)) in Q. rewrite V in Q. exact Q.
Qed.

(** ** the orbit *)
Section O.
Variables (c : Z -> dbl) (C : consts_exact c).
Lemma harmonics_fit w kc kh s : (5 <= kc <= 66)%Z -> (5 <= kh <= 66)%Z -> (1 <= w <= 32)%Z -> orbit_fits w kc kh s ->
  exists crs crc cuc cus cic cis, (forall k, harmonics c kc kh s k = k crs crc cuc cus cic cis) /\
    (sbits w crs /\ sbits w crc /\ sbits w cuc /\ sbits w cus /\ sbits w cic /\ sbits w cis) /\
    (nr crs (unit2 kc) (fv (s_crs s)) /\ nr crc (unit2 kc) (fv (s_crc s)) /\ nr cuc (unit2 kh) (fv (s_cuc s)) /\ nr cus (unit2 kh) (fv (s_cus s)) /\ nr cic (unit2 kh) (fv (s_cic s)) /\ nr cis (unit2 kh) (fv (s_cis s))).
Proof.
  intros K1 K2 W (H1 & H2 & H3 & H4 & H5 & H6 & _).
  assert (L : (- 2 ^ 31 <= - 2 ^ (w - 1))%Z) by (assert (2 ^ (w - 1) <= 2 ^ 31)%Z by (apply Z.pow_le_mono_r; lia); lia).
  assert (U : (2 ^ (w - 1) - 1 < 2 ^ 31)%Z) by lia. pose proof (unit_c c C kc K1) as UC. pose proof (unit_c c C kh K2) as UH.
  destruct (f_field _ _ w _ _ _ UC H1 W L U) as (z1 & E1 & R1 & Q1). destruct (f_field _ _ w _ _ _ UC H2 W L U) as (z2 & E2 & R2 & Q2).
  destruct (f_field _ _ w _ _ _ UH H3 W L U) as (z3 & E3 & R3 & Q3). destruct (f_field _ _ w _ _ _ UH H4 W L U) as (z4 & E4 & R4 & Q4).
  destruct (f_field _ _ w _ _ _ UH H5 W L U) as (z5 & E5 & R5 & Q5). destruct (f_field _ _ w _ _ _ UH H6 W L U) as (z6 & E6 & R6 & Q6).
  exists z1, z2, z3, z4, z5, z6. split; [|split; [split; [exact R1|split; [exact R2|split; [exact R3|split; [exact R4|split; [exact R5|exact R6]]]]]|split; [exact Q1|split; [exact Q2|split; [exact Q3|split; [exact Q4|split; [exact Q5|exact Q6]]]]]]].
  intros k. unfold harmonics, uf, r32. rewrite E1, E2, E3, E4, E5, E6. reflexivity.
Qed.
Lemma orbit_fit w kc kh s : orbit_fits w kc kh s ->
  exists dn m0 ecc sqrta omega0 omegadot om inc inc_dot, (forall k, orbit c s k = k dn m0 ecc sqrta omega0 omegadot om inc inc_dot) /\
    (sbits 16 dn /\ sbits 32 m0 /\ ubits 32 ecc /\ ubits 32 sqrta /\ sbits 32 omega0 /\ sbits 24 omegadot /\ sbits 32 om /\ sbits 32 inc /\ sbits 14 inc_dot) /\
    (nr dn (semic 43) (dv (s_dn s)) /\ nr m0 (semic 31) (dv (s_m0 s)) /\ nr ecc (unit2 33) (dv (s_ecc s)) /\ nr sqrta (unit2 19) (dv (s_sqrta s)) /\
     nr omega0 (semic 31) (dv (s_omega0 s)) /\ nr omegadot (semic 43) (dv (s_omegadot s)) /\ nr om (semic 31) (dv (s_w s)) /\ nr inc (semic 31) (dv (s_inc s)) /\ nr inc_dot (semic 43) (dv (s_inc_dot s))).
Proof.
  intros (_ & _ & _ & _ & _ & _ & H1 & H2 & H3 & H4 & H5 & H6 & H7 & H8 & H9).
  pose proof (unit_pi c C 43 ltac:(lia)) as P43. pose proof (unit_pi c C 31 ltac:(lia)) as P31. pose proof (unit_c c C 33 ltac:(lia)) as U33. pose proof (unit_c c C 19 ltac:(lia)) as U19.
  destruct (d_field (- 2 ^ 15) (2 ^ 15) 16 _ _ _ P43 H1) as (z1 & E1 & R1 & Q1); [lia..|]. destruct (d_field (- 2 ^ 31) (2 ^ 31) 32 _ _ _ P31 H2) as (z2 & E2 & R2 & Q2); [lia..|].
  destruct (u_field 0 (2 ^ 32) 32 _ _ _ U33 H3) as (z3 & E3 & R3 & Q3); [lia..|]. destruct (u_field 0 (2 ^ 32) 32 _ _ _ U19 H4) as (z4 & E4 & R4 & Q4); [lia..|].
  destruct (d_field (- 2 ^ 31) (2 ^ 31) 32 _ _ _ P31 H5) as (z5 & E5 & R5 & Q5); [lia..|]. destruct (d_field (- 2 ^ 31) (2 ^ 31) 24 _ _ _ P43 H6) as (z6 & E6 & R6 & Q6); [lia..|].
  destruct (d_field (- 2 ^ 31) (2 ^ 31) 32 _ _ _ P31 H7) as (z7 & E7 & R7 & Q7); [lia..|]. destruct (d_field (- 2 ^ 31) (2 ^ 31) 32 _ _ _ P31 H8) as (z8 & E8 & R8 & Q8); [lia..|].
  destruct (d_field (- 2 ^ 15) (2 ^ 15) 14 _ _ _ P43 H9) as (z9 & E9 & R9 & Q9); [lia..|].
  exists z1, z2, z3, z4, z5, z6, z7, z8, z9. split; [|tauto].
  intros k. unfold orbit, up, ud, r32, r16, ru32. rewrite E1, E2, E3, E4, E5, E6, E7, E8, E9. reflexivity.
Qed.
End O.
(** ** back: from the received values *)
Lemma back_d k n x' v : dexact x' (scaled n k) -> nr n (unit2 k) v -> is_finite 53 1024 x' = true /\ half_unit (unit2 k) (dv x') v.
Proof.
  intros [F V] N. split; [exact F|]. unfold half_unit, dv. rewrite V. unfold scaled. fold (unit2 k). assert (P : 0 < unit2 k) by apply bpow_gt_0.
  replace (IZR n * unit2 k - v) with (unit2 k * (IZR n - v / unit2 k)) by (field; lra). rewrite Rabs_mult, Rabs_pos_eq, (Rmult_comm (501 / 1000)) by lra. apply Rmult_le_compat_l; [lra|]. unfold nr in N. lra.
Qed.
Lemma back_f k n x' v : fexact x' (scaled n k) -> nr n (unit2 k) v -> is_finite 24 128 x' = true /\ half_unit (unit2 k) (fv x') v.
Proof.
  intros [F V] N. split; [exact F|]. unfold half_unit, fv. rewrite V. unfold scaled. fold (unit2 k). assert (P : 0 < unit2 k) by apply bpow_gt_0.
  replace (IZR n * unit2 k - v) with (unit2 k * (IZR n - v / unit2 k)) by (field; lra). rewrite Rabs_mult, Rabs_pos_eq, (Rmult_comm (501 / 1000)) by lra. apply Rmult_le_compat_l; [lra|]. unfold nr in N. lra.
Qed.
Lemma half_of u n x' v : 0 < u -> Rabs (x' - IZR n * u) <= u * / 2000 -> nr n u v -> half_unit u x' v.
Proof.
  intros U A N. unfold half_unit. replace (x' - v) with ((x' - IZR n * u) + u * (IZR n - v / u)) by (field; lra). eapply Rle_trans; [apply Rabs_triang|].
  rewrite Rabs_mult, (Rabs_pos_eq u) by lra. assert (u * Rabs (IZR n - v / u) <= u * (/ 2 + / 5000)) by (apply Rmult_le_compat_l; [lra|exact N]). lra.
Qed.
Lemma back_r k n x' v : radians x' (scaled n k) -> (Z.abs n <= 2 ^ 33)%Z -> nr n (semic k) v -> is_finite 53 1024 x' = true /\ half_unit (semic k) (dv x') v.
Proof.
  intros [F V] A N. split; [exact F|]. assert (P : 0 < bpow radix2 (- k)) by apply bpow_gt_0. pose proof pi_pos as PP. assert (S : 0 < semic k) by (apply Rmult_lt_0_compat; lra).
  apply half_of with n; [exact S| |exact N]. assert (E : scaled n k * PI = IZR n * semic k) by (unfold scaled, semic; ring). rewrite E in V. eapply Rle_trans; [exact V|].
  rewrite Rabs_mult, (Rabs_pos_eq (semic k)) by lra. apply IZR_le in A. rewrite abs_IZR in A. change (IZR (2 ^ 33)) with 8589934592 in A.
  assert (Rabs (IZR n) * semic k <= 8589934592 * semic k) by (apply Rmult_le_compat_r; lra). lra.
Qed.
