(** Numeric part of C68: pseudoranges and carrier phases through the legacy messages, in double arithmetic *)
From Coq Require Import Reals Lra Znumtheory.
From Flocq Require Import Core IEEE754.Binary IEEE754.Bits.
From Verif Require Import Base Bits_model Bits_proofs Double_model Double_proofs NmeaFields_proofs Near_proofs Exact_proofs NovImu_proofs SbpEph_spec SbpEph_proofs RtcmLegacy_model RtcmLegacy_proofs Sbp2Rtcm_model
  MsmVal_model MsmVal_spec MsmVal_proofs Abs_proofs LegVal_model LegVal_spec.
Open Scope R_scope.

Lemma rabs_le x e : - e <= x <= e -> Rabs x <= e. Proof. intros H. apply Rabs_le. lra. Qed.
Ltac ra := apply rabs_le; lra.
Ltac bl := bpn; lra.

(** *** constants *)
Definition U (s : sys) : R := IZR (unit20 s) / 1000.
Lemma U_range s : U s = 299792458 / 1000 \/ U s = 599584916 / 1000. Proof. destruct s; [left|right]; reflexivity. Qed.
Lemma prunit_ab s : ab (prunit_d s) (U s) (6 / 10000000000).
Proof.
  destruct s; unfold U, unit20.
  - apply (ab_val _ _ 8); [cval|lra|]. rewrite Rabs_pos_eq by lra. unfold u53. lra.
  - apply (ab_val _ _ 8); [cval|lra|]. rewrite Rabs_pos_eq by lra. unfold u53. lra.
Qed.
Lemma c002_ab : ab c_0_02 (2 / 100) (2 / 100000000000000000). Proof. apply (ab_val _ _ 8); [cval|lra|]. rewrite Rabs_pos_eq by lra. unfold u53. lra. Qed.
Lemma c0005_ab : ab c_0_0005 (5 / 10000) (5 / 10000000000000000000). Proof. apply (ab_val _ _ 8); [cval|lra|]. rewrite Rabs_pos_eq by lra. unfold u53. lra. Qed.

(** *** pseudorange *)
Section Range.
Variable s : sys.
Definition metres (P : Z) : dbl := ddiv (dofZ P) (dofZ 50).
Lemma izr_le a b : (a <= b)%Z -> IZR a <= IZR b. Proof. apply IZR_le. Qed.
Lemma metres_ab P : (0 <= P < 2 ^ 32)%Z -> ab (metres P) (IZR P / 50) (/ 134217728).
Proof.
  intros H. assert (0 <= IZR P <= 4294967296) by (split; [apply (izr_le 0)|apply (izr_le P (2 ^ 32))]; lia). unfold metres.
  apply (ab_div 27 4294967296 (/ 50) _ _ _ _ 0 0); [apply ab_Z; lia|apply ab_Z; lia|lia|ra|lra|lra|lra|bl|bl].
Qed.
Lemma ambU_ab A : (0 <= A <= 255)%Z -> ab (dmul (dofZ A) (prunit_d s)) (IZR A * U s) (17 / 100000000).
Proof.
  intros H. assert (0 <= IZR A <= 255) by (split; apply izr_le; lia). pose proof (U_range s).
  apply (ab_mul 28 255 600000 _ _ _ _ 0 (6 / 10000000000)); [apply ab_Z; lia|apply prunit_ab|lia|ra|ra|bl|bl].
Qed.
Lemma AU_range A : (0 <= A <= 255)%Z -> 0 <= IZR A * U s <= 153000000.
Proof. intros H. assert (0 <= IZR A <= 255) by (split; apply izr_le; lia). pose proof (U_range s). nra. Qed.
Lemma offset_ab A P : (0 <= A <= 255)%Z -> (0 <= P < 2 ^ 32)%Z -> ab (offset_d s A (metres P)) (IZR P - IZR A * U s * 50) (/ 20000).
Proof.
  intros HA HP. assert (0 <= IZR P <= 4294967296) by (split; [apply (izr_le 0)|apply (izr_le P (2 ^ 32))]; lia). pose proof (AU_range A HA). unfold offset_d.
  apply (ab_eq _ ((IZR P / 50 - IZR A * U s) / (2 / 100))); [|field].
  apply (ab_div 34 153000000 50 _ _ _ _ (2 / 10000000) (2 / 100000000000000000)); [|apply c002_ab|lia|ra|lra|lra|lra|bl|bl].
  apply (ab_sub 28 153000000 _ _ _ _ (/ 134217728) (17 / 100000000)); [apply metres_ab; exact HP|apply ambU_ab; exact HA|lia|ra|bl|bl].
Qed.
Lemma int20 a b e : Rabs (IZR a - IZR b) <= e -> forall k, e < IZR k + 1 -> (Z.abs (a - b) <= k)%Z.
Proof. intros H k L. rewrite <- minus_IZR, <- abs_IZR in H. apply Z.lt_succ_r, lt_IZR. rewrite succ_IZR. lra. Qed.
Lemma unit_pos : (299792458 <= unit20 s <= 599584916)%Z. Proof. destruct s; cbn; lia. Qed.
Lemma U20 : U s * 50 = IZR (unit20 s) / 20. Proof. unfold U. field. Qed.
(** the ambiguity: number of whole units, or one less for an exact multiple *)
Lemma amb_spec P : (0 <= P)%Z -> (20 * P <= 255 * 299792458)%Z ->
  exists A, amb_d s (metres P) = Some A /\ (0 <= A <= match s with GPS => 255 | GLO => 127 end)%Z /\ (A * unit20 s <= 20 * P <= (A + 1) * unit20 s)%Z.
Proof.
  intros H0 H1. assert (HP : (0 <= P < 2 ^ 32)%Z) by lia.
  assert (R0 : 0 <= IZR P <= 3822353840) by (split; apply izr_le; lia). pose proof (U_range s) as UR.
  assert (Q : ab (ddiv (metres P) (prunit_d s)) (IZR P / 50 / U s) (3 / 1000000000000)).
  { apply (ab_div 9 76500000 (1 / 299792) _ _ _ _ (/ 134217728) (6 / 10000000000)); [apply metres_ab; exact HP|apply prunit_ab|lia|ra|destruct UR as [-> | ->]; lra| |lra|bl|bl].
    destruct UR as [-> | ->]; lra. }
  assert (V0 : 0 <= IZR P / 50 / U s) by (destruct UR as [-> | ->]; lra).
  destruct (ab_trunc _ _ _ Q V0 ltac:(lra)) as (A & E & A0 & B). pose proof unit_pos as UP.
  assert (EV : IZR P / 50 / U s = IZR (20 * P) / IZR (unit20 s)).
  { unfold U. rewrite mult_IZR. assert (IZR (unit20 s) <> 0) by (apply not_0_IZR; lia). field. assumption. }
  rewrite EV in B. set (u := unit20 s) in *.
  assert (UR2 : 299792458 <= IZR u <= 599584916) by (split; apply izr_le; lia).
  assert (L1 : (A * u <= 20 * P)%Z).
  { apply Z.lt_succ_r, lt_IZR. rewrite succ_IZR, mult_IZR. destruct B as [B _]. apply Rmult_le_compat_r with (r := IZR u) in B; [|lra].
    unfold Rdiv in B. rewrite (Rmult_assoc (IZR (20 * P))), Rinv_l, Rmult_1_r in B by lra. nra. }
  assert (L2 : (20 * P <= (A + 1) * u)%Z).
  { apply Z.lt_succ_r, lt_IZR. rewrite succ_IZR, (mult_IZR (A + 1)), plus_IZR. destruct B as [_ B]. apply Rmult_lt_compat_r with (r := IZR u) in B; [|lra].
    unfold Rdiv in B. rewrite (Rmult_assoc (IZR (20 * P))), Rinv_l, Rmult_1_r in B by lra. nra. }
  exists A. assert (AM : (A <= match s with GPS => 255 | GLO => 127 end)%Z) by (unfold u in *; destruct s; cbn [unit20] in *; lia).
  unfold amb_d. rewrite E. cbn [conv].
  destruct (Z.leb_spec 0 A); [|lia]. destruct (Z.leb_spec A 255); [|destruct s; lia]. split; [reflexivity|]. lia.
Qed.
(** the transmitted pseudorange *)
Lemma calc_spec A P : (0 <= A <= 255)%Z -> (0 <= P < 2 ^ 32)%Z -> (A * unit20 s <= 20 * P <= 19 * 2 ^ 24 * match s with GPS => 1 | GLO => 2 end + A * unit20 s)%Z ->
  exists n, calc_d s A (metres P) = Some n /\ (0 <= n < 2 ^ match s with GPS => 24 | GLO => 25 end)%Z /\ (Z.abs (20 * n + A * unit20 s - 20 * P) <= 10)%Z.
Proof.
  intros HA HP HR. pose proof (offset_ab A P HA HP) as O. destruct (ab_round _ _ _ O) as (n & E & C). exists n.
  rewrite Rmult_assoc, U20 in C.
  assert (N : (Z.abs (20 * n - (20 * P - A * unit20 s)) <= 10)%Z).
  { apply (int20 _ _ (10 + / 1000)); [|lra]. rewrite minus_IZR, !mult_IZR. apply Rabs_le_inv in C. apply rabs_le. lra. }
  unfold calc_d. rewrite E. cbn [conv].
  assert (NR : (0 <= n < 2 ^ match s with GPS => 24 | GLO => 25 end)%Z) by (clear - N HR; destruct s; cbn [unit20] in *; lia).
  destruct (Z.leb_spec 0 n); [|lia]. destruct (Z.leb_spec n (2 ^ 32 - 1)); [|clear - NR H0; destruct s; lia]. split; [reflexivity|]. split; [exact NR|]. lia.
Qed.
(** the pseudorange as the encoder reconstructs it and as the decoder computes it *)
Definition value_m (n A : Z) : R := IZR (20 * n + A * unit20 s) / 1000.
Lemma value_range n A : (0 <= A <= 255)%Z -> (-20000 <= n <= 2 ^ 26)%Z -> -400 <= value_m n A <= 155000000.
Proof. intros HA HN. pose proof unit_pos. unfold value_m. assert (-400000 <= IZR (20 * n + A * unit20 s) <= 155000000000); [|lra]. split; apply izr_le; nia. Qed.
Lemma tens_ab n : (0 <= n < 2 ^ 25)%Z -> ab (dmul (dofZ n) c_0_02) (IZR n * (2 / 100)) (/ 1000000000) /\ ab (dmul c_0_02 (dofZ n)) (2 / 100 * IZR n) (/ 1000000000).
Proof.
  intros H. assert (0 <= IZR n <= 33554432) by (split; [apply (izr_le 0)|apply (izr_le n (2 ^ 25))]; lia).
  split; [apply (ab_mul 20 33554432 (2 / 100) _ _ _ _ 0 (2 / 100000000000000000)); [apply ab_Z; lia|apply c002_ab|lia|ra|ra|bl|bl]|
          apply (ab_mul 20 (2 / 100) 33554432 _ _ _ _ (2 / 100000000000000000) 0); [apply c002_ab|apply ab_Z; lia|lia|ra|ra|bl|bl]].
Qed.
Lemma value_eq n A : value_m n A = IZR n * (2 / 100) + IZR A * U s.
Proof. unfold value_m, U. rewrite plus_IZR, !mult_IZR. field. Qed.
Lemma prc_ab n A : (0 <= A <= 255)%Z -> (0 <= n < 2 ^ 25)%Z -> ab (l1_prc s A n) (value_m n A) (2 / 10000000).
Proof.
  intros HA HN. rewrite value_eq. pose proof (AU_range A HA). assert (0 <= IZR n <= 33554432) by (split; [apply (izr_le 0)|apply (izr_le n (2 ^ 25))]; lia).
  apply (ab_add 28 154000000 _ _ _ _ (/ 1000000000) (17 / 100000000)); [apply (tens_ab n HN)|apply ambU_ab; exact HA|lia|ra|bl|bl].
Qed.
Definition rx_m (n A : Z) : dbl := dadd (dmul c_0_02 (dofZ n)) (dmul (dofZ A) (prunit_d s)).
Lemma rx_ab n A : (0 <= A <= 255)%Z -> (0 <= n < 2 ^ 25)%Z -> ab (rx_m n A) (value_m n A) (2 / 10000000).
Proof.
  intros HA HN. rewrite value_eq, (Rmult_comm (IZR n)). pose proof (AU_range A HA). assert (0 <= IZR n <= 33554432) by (split; [apply (izr_le 0)|apply (izr_le n (2 ^ 25))]; lia).
  apply (ab_add 28 154000000 _ _ _ _ (/ 1000000000) (17 / 100000000)); [apply (tens_ab n HN)|apply ambU_ab; exact HA|lia|ra|bl|bl].
Qed.
(** L2: the difference is added to the L1 value *)
Lemma rx2_ab n A d : (0 <= A <= 255)%Z -> (0 <= n < 2 ^ 25)%Z -> (-8191 <= d <= 8191)%Z -> ab (dadd (dmul c_0_02 (dofZ d)) (rx_m n A)) (value_m (n + d) A) (3 / 10000000).
Proof.
  intros HA HN HD. pose proof (rx_ab n A HA HN) as X. pose proof (value_range n A HA ltac:(lia)) as VR.
  assert (-8191 <= IZR d <= 8191) by (split; apply izr_le; lia).
  apply (ab_eq _ (2 / 100 * IZR d + value_m n A)). 2:{ unfold value_m. rewrite !plus_IZR, !mult_IZR, plus_IZR. field. }
  apply (ab_add 28 155001000 _ _ _ _ (/ 1000000000000) (2 / 10000000)); [|exact X|lia|ra|bl|bl].
  apply (ab_mul 8 (2 / 100) 8191 _ _ _ _ (2 / 100000000000000000) 0); [apply c002_ab|apply ab_Z; lia|lia|ra|ra|bl|bl].
Qed.
(** back to 2 cm units *)
Lemma P_back x n A P : (0 <= A <= 255)%Z -> (-20000 <= n <= 2 ^ 26)%Z -> (0 <= P < 2 ^ 32 - 1)%Z -> ab x (value_m n A) (3 / 10000000) -> (Z.abs (20 * n + A * unit20 s - 20 * P) <= 10)%Z ->
  exists P', conv 0 (2 ^ 32 - 1) (drint (dmul (dadd x d0) (dofZ 50))) = Some P' /\
    (if match s with GPS => A mod 10 =? 5 | GLO => false end then Z.abs (P' - P) <= 1 else P' = P)%Z.
Proof.
  intros HA HN HP X C. pose proof (value_range n A HA HN) as VR.
  assert (X1 : ab (dadd x d0) (value_m n A) (4 / 10000000)).
  { apply (ab_eq _ (value_m n A + 0)); [|ring]. apply (ab_add 28 155000000 _ _ _ _ (3 / 10000000) 0); [exact X|apply (ab_Z 0); lia|lia|rewrite Rplus_0_r; ra|bl|bl]. }
  assert (X2 : ab (dmul (dadd x d0) (dofZ 50)) (value_m n A * 50) (/ 20000)).
  { apply (ab_mul 33 155000000 50 _ _ _ _ (4 / 10000000) 0); [exact X1|apply ab_Z; lia|lia|ra|ra|bl|bl]. }
  assert (V20 : value_m n A * 50 = IZR (20 * n + A * unit20 s) / 20) by (unfold value_m; field).
  destruct (ab_rint _ _ _ X2) as (P' & E & B). rewrite V20 in B.
  assert (B20 : (Z.abs (20 * P' - (20 * n + A * unit20 s)) <= 10)%Z).
  { apply (int20 _ _ (10 + / 1000)); [|lra]. rewrite mult_IZR. apply Rabs_le_inv in B. apply rabs_le. lra. }
  assert (D1 : (Z.abs (P' - P) <= 1)%Z) by (clear - B20 C; lia).
  destruct (Z.eq_dec P' P) as [-> | NE].
  - exists P. rewrite E. cbn [conv]. destruct (Z.leb_spec 0 P); [|lia]. destruct (Z.leb_spec P (2 ^ 32 - 1)); [|lia]. split; [reflexivity|]. destruct (match s with GPS => _ | GLO => _ end); lia.
  - assert (T : (A * unit20 s) mod 20 = 10%Z).
    { assert (Q : (20 * n + A * unit20 s - 20 * P = 10 \/ 20 * n + A * unit20 s - 20 * P = -10)%Z) by (clear - B20 C NE; lia).
      destruct Q as [Q|Q]; [symmetry; apply (Z.mod_unique_pos _ _ (P - n)); lia|symmetry; apply (Z.mod_unique_pos _ _ (P - n - 1)); lia]. }
    destruct s; cbn [unit20] in T.
    + assert (A5 : (A mod 10 = 5)%Z).
      { rewrite Z.mul_mod in T by lia. change (299792458 mod 20)%Z with 18%Z in T.
        pose proof (Z.mod_pos_bound A 20 ltac:(lia)) as MA.
        assert (AM : (A mod 10 = (A mod 20) mod 10)%Z) by (apply (Znumtheory.Zmod_div_mod 10 20 A); [lia|lia|exists 2%Z; reflexivity]).
        rewrite AM. set (a := (A mod 20)%Z) in *. clearbody a. clear - T MA. assert (K : forall k, (0 <= k < 20 -> (k * 18) mod 20 = 10 -> k mod 10 = 5)%Z).
        { intros k Hk. assert (I : In k (map Z.of_nat (seq 0 20))) by (apply in_map_iff; exists (Z.to_nat k); split; [lia|apply in_seq; lia]). revert I. cbn [seq map Z.of_nat Pos.of_succ_nat Pos.succ In].
          intros I. repeat (destruct I as [<- | I]; [cbn; try discriminate; reflexivity|]). destruct I. }
        apply K; assumption. }
      rewrite A5. cbn [Z.eqb Pos.eqb].
      assert (P0 : (0 <= P' <= 2 ^ 32 - 1)%Z).
      { split; [|lia]. destruct (Z.eq_dec A 0) as [-> | NA]; [discriminate A5|]. clear - C B20 HN NE HA NA. cbn [unit20] in *. lia. }
      exists P'. rewrite E. cbn [conv]. destruct (Z.leb_spec 0 P'); [|lia]. destruct (Z.leb_spec P' (2 ^ 32 - 1)); [|lia]. split; [reflexivity|exact D1].
    + exfalso. rewrite Z.mul_mod in T by lia. change (599584916 mod 20)%Z with 16%Z in T. clear - T.
      pose proof (Z.div_mod (A mod 20 * 16) 20 ltac:(lia)) as D. rewrite T in D. lia.
Qed.
End Range.

(** *** carrier phase *)
Section Phase.
Variables (f : Z) (fr : dbl).
Hypothesis Hf : (1200000000 <= f <= 1620000000)%Z.
Hypothesis Hfr : ab fr (IZR f) 0.
Definition lam : R := 299792458 / IZR f.
Lemma f_range : 1200000000 <= IZR f <= 1620000000. Proof. split; apply izr_le; lia. Qed.
Lemma lam_range : 185 / 1000 <= lam <= 24983 / 100000.
Proof.
  pose proof f_range as F. unfold lam. split.
  - apply Rmult_le_reg_r with (IZR f); [lra|]. unfold Rdiv at 2. rewrite Rmult_assoc, Rinv_l, Rmult_1_r by lra. lra.
  - apply Rmult_le_reg_r with (IZR f); [lra|]. unfold Rdiv at 1. rewrite Rmult_assoc, Rinv_l, Rmult_1_r by lra. lra.
Qed.
Lemma lam_ab : ab (ddiv GPS_C fr) lam (/ 72057594037927936).
Proof.
  pose proof f_range. unfold lam. apply (ab_div (-2) 299792458 (/ 1200000000) _ _ _ _ 0 0); [apply ab_Z; lia|exact Hfr|lia|ra|lra|apply Rinv_le; lra|lra|bl|bl].
Qed.
Definition W : R := lam * 2000.
Lemma W_range : 370 <= W <= 500. Proof. pose proof lam_range. unfold W. lra. Qed.
Lemma unit_ab : ab (phase_unit fr) W (2 / 1000000000000).
Proof.
  pose proof lam_range. unfold phase_unit. apply (ab_eq _ (lam / (5 / 10000))); [|unfold W; field].
  apply (ab_div 9 (1 / 4) 2000 _ _ _ _ (/ 72057594037927936) (5 / 10000000000000000000)); [apply lam_ab|apply c0005_ab|lia|ra|lra|lra|lra|bl|bl].
Qed.
Lemma lam_inv : / lam <= 55 / 10. Proof. pose proof lam_range. apply Rle_trans with (/ (185 / 1000)); [apply Rinv_le; lra|lra]. Qed.
(** lround to int32 *)
Lemma lround_spec x v e : ab x v e -> Rabs v <= 2147483000 -> e <= 1 -> exists z, lround32 x = Some z /\ Rabs (IZR z - v) <= / 2 + e.
Proof.
  intros X B L. destruct (ab_round _ _ _ X) as (z & E & C). exists z. split; [|exact C]. unfold lround32. rewrite E.
  apply Rabs_le_inv in B. apply Rabs_le_inv in C.
  assert (Z1 : (- 2 ^ 31 <= z < 2 ^ 31)%Z) by (split; [apply le_IZR|apply lt_IZR]; [change (IZR (- 2 ^ 31)) with (-2147483648)|change (IZR (2 ^ 31)) with 2147483648]; lra).
  cbn [conv]. destruct (Z.leb_spec (- 2 ^ 63) z); [|lia]. destruct (Z.leb_spec z (2 ^ 63 - 1)); [|lia]. cbn [andb]. rewrite to_signed_id by lia. reflexivity.
Qed.
Lemma prod_ab cp X e : ab cp X e -> Rabs X <= 5500000 -> e <= 5 / 1000000 -> ab (dmul cp (phase_unit fr)) (X * W) (3 / 1000).
Proof.
  intros C B L. pose proof W_range. pose proof (ab_pos _ _ _ C).
  apply (ab_mul 32 5500000 500 _ _ _ _ e (2 / 1000000000000)); [exact C|apply unit_ab|lia|exact B|ra|bpn; nra|bpn; nra].
Qed.
(** encode_diff_phaserange: the phase-range difference in 0.5 mm, rolled over by multiples of 1500 cycles *)
Lemma diff_spec cp X : ab cp X (4 / 1000000) -> Rabs (X * W) <= 2001000000 ->
  exists ppr j, diff_d cp fr = Some ppr /\ (-524288 <= ppr <= 524288)%Z /\ Rabs (IZR ppr - (X + 1500 * IZR j) * W) <= 51 / 100 /\
    (Rabs (X * W) <= 524200 -> j = 0%Z /\ (-524287 <= ppr <= 524287)%Z).
Proof.
  intros C B. pose proof W_range as WR.
  assert (XB : Rabs X <= 5410000).
  { rewrite Rabs_mult, (Rabs_pos_eq W) in B by lra. apply Rmult_le_reg_r with W; [lra|]. apply Rle_trans with (1 := B). lra. }
  pose proof (prod_ab _ _ _ C ltac:(lra) ltac:(lra)) as PA.
  destruct (lround_spec _ _ _ PA ltac:(lra) ltac:(lra)) as (p & E & N). unfold diff_d. cbv zeta. rewrite E. unfold C_2P19.
  apply Rabs_le_inv in B. apply Rabs_le_inv in XB. apply Rabs_le_inv in N.
  assert (TA : forall m, (m = 524288 \/ m = -524288)%Z -> ab (ddiv (dofZ m) (phase_unit fr)) (IZR m / W) (/ 100000000)).
  { intros m M. assert (-524288 <= IZR m <= 524288) by (destruct M as [-> | ->]; lra).
    apply (ab_div 11 524288 (/ 370) _ _ _ _ 0 (2 / 1000000000000)); [apply ab_Z; lia|apply unit_ab|lia|ra|lra|apply Rinv_le; lra|lra|bl|bl]. }
  assert (TW : 524288 / W * W = 524288 /\ 1040 <= 524288 / W <= 1420).
  { split; [field; lra|]. split; apply Rmult_le_reg_r with W; try lra; unfold Rdiv; rewrite ?Rmult_assoc, ?Rinv_l, ?Rmult_1_r by lra; lra. }
  destruct TW as [TW TR]. set (t := 524288 / W) in *.
  destruct (Z.leb_spec p (- (524288))) as [LP|LP].
  - (* add multiples of 1500 cycles *)
    assert (PR : IZR p <= -524288) by (apply (izr_le p (-524288)); exact LP).
    assert (XN : X * W <= -524287) by lra.
    assert (T1 : ab (dsub (ddiv (dofZ (- (524288))) (phase_unit fr)) cp) (- t - X) (5 / 1000000)).
    { apply (ab_sub 23 5420000 _ _ _ _ (/ 100000000) (4 / 1000000)); [apply (ab_eq _ (IZR (- (524288)) / W)); [apply TA; right; reflexivity|unfold t; change (IZR (- (524288))) with (- (524288)); field; lra]|exact C|lia|ra|bl|bl]. }
    assert (T2 : ab (ddiv (dsub (ddiv (dofZ (- (524288))) (phase_unit fr)) cp) (dofZ 1500)) ((- t - X) / 1500) (/ 100000000)).
    { apply (ab_div 13 5420000 (/ 1500) _ _ _ _ (5 / 1000000) 0); [exact T1|apply ab_Z; lia|lia|ra|lra|lra|lra|bl|bl]. }
    destruct (dceil_spec _ _ _ T2) as (K & EK & [K1 K2]). unfold dceil_d. rewrite EK.
    assert (X0 : X <= 0) by (destruct (Rle_dec X 0); [assumption|exfalso; assert (0 <= X * W) by (apply Rmult_le_pos; lra); lra]).
    assert (QB : -1 <= (- t - X) / 1500 <= 3607) by lra.
    assert (KB : -10 <= IZR K <= 3700) by (clear - QB K1 K2; lra).
    assert (KZ : (-10 <= K <= 3700)%Z) by (split; apply le_IZR; lra).
    assert (KA : ab (dmul (dofZ 1500) (dofZ K)) (1500 * IZR K) 0).
    { apply ab_exact. pose proof (ex_mul2 (dofZ 1500) (dofZ K) 1500 K 0 (ex_Z 1500 ltac:(lia)) (ex_Z K ltac:(lia)) ltac:(lia) ltac:(lia)) as M.
      rewrite scaled_0, mult_IZR in M. exact M. }
    assert (XK : - t - 16 / 1000000 <= X + 1500 * IZR K <= - t + 1500 + 16 / 1000000) by lra.
    assert (CA : ab (dadd cp (dmul (dofZ 1500) (dofZ K))) (X + 1500 * IZR K) (5 / 1000000)).
    { apply (ab_add 23 10000 _ _ _ _ (4 / 1000000) 0); [exact C|exact KA|lia|ra|bl|bl]. }
    pose proof (prod_ab _ _ _ CA ltac:(ra) ltac:(lra)) as PB.
    assert (YW : -524288 - 8 / 1000 <= (X + 1500 * IZR K) * W <= -524288 + 750000 + 8 / 1000) by (split; nra).
    destruct (lround_spec _ _ _ PB ltac:(ra) ltac:(lra)) as (q & EQ & NQ). exists q, K. rewrite EQ. apply Rabs_le_inv in NQ.
    assert (-524289 < q)%Z by (apply lt_IZR; lra). assert (q < 524288)%Z by (apply lt_IZR; lra).
    split; [reflexivity|]. split; [lia|]. split; [ra|]. intros Q. apply Rabs_le_inv in Q. lra.
  - destruct (Z.leb_spec 524288 p) as [UP|UP].
    + (* subtract *)
      assert (PR : 524288 <= IZR p) by (apply (izr_le 524288 p); exact UP).
      assert (XN : 524287 <= X * W) by lra.
      assert (T1 : ab (dsub cp (ddiv (dofZ 524288) (phase_unit fr))) (X - t) (5 / 1000000)).
      { apply (ab_sub 23 5420000 _ _ _ _ (4 / 1000000) (/ 100000000)); [exact C|apply TA; left; reflexivity|lia|ra|bl|bl]. }
      assert (T2 : ab (ddiv (dsub cp (ddiv (dofZ 524288) (phase_unit fr))) (dofZ 1500)) ((X - t) / 1500) (/ 100000000)).
      { apply (ab_div 13 5420000 (/ 1500) _ _ _ _ (5 / 1000000) 0); [exact T1|apply ab_Z; lia|lia|ra|lra|lra|lra|bl|bl]. }
      destruct (dceil_spec _ _ _ T2) as (K & EK & [K1 K2]). unfold dceil_d. rewrite EK.
      assert (X0 : 0 <= X) by (destruct (Rle_dec 0 X); [assumption|exfalso; assert (0 <= - X * W) by (apply Rmult_le_pos; lra); lra]).
      assert (QB : -1 <= (X - t) / 1500 <= 3607) by lra.
      assert (KB : -10 <= IZR K <= 3700) by (clear - QB K1 K2; lra).
      assert (KZ : (-10 <= K <= 3700)%Z) by (split; apply le_IZR; lra).
      assert (KA : ab (dmul (dofZ 1500) (dofZ K)) (1500 * IZR K) 0).
      { apply ab_exact. pose proof (ex_mul2 (dofZ 1500) (dofZ K) 1500 K 0 (ex_Z 1500 ltac:(lia)) (ex_Z K ltac:(lia)) ltac:(lia) ltac:(lia)) as M.
        rewrite scaled_0, mult_IZR in M. exact M. }
      assert (XK : t - 1500 - 16 / 1000000 <= X - 1500 * IZR K <= t + 16 / 1000000) by lra.
      assert (CA : ab (dsub cp (dmul (dofZ 1500) (dofZ K))) (X - 1500 * IZR K) (5 / 1000000)).
      { apply (ab_sub 23 10000 _ _ _ _ (4 / 1000000) 0); [exact C|exact KA|lia|ra|bl|bl]. }
      pose proof (prod_ab _ _ _ CA ltac:(ra) ltac:(lra)) as PB.
      assert (YW : 524288 - 750000 - 8 / 1000 <= (X - 1500 * IZR K) * W <= 524288 + 8 / 1000) by (split; nra).
      destruct (lround_spec _ _ _ PB ltac:(ra) ltac:(lra)) as (q & EQ & NQ). exists q, (- K)%Z. rewrite EQ. apply Rabs_le_inv in NQ.
      assert (-524289 < q)%Z by (apply lt_IZR; lra). assert (q < 524289)%Z by (apply lt_IZR; lra).
      split; [reflexivity|]. split; [lia|]. split; [rewrite opp_IZR; replace (X + 1500 * - IZR K) with (X - 1500 * IZR K) by ring; ra|]. intros Q. apply Rabs_le_inv in Q. lra.
    + exists p, 0%Z. split; [reflexivity|]. split; [lia|]. split; [rewrite Rmult_0_r, Rplus_0_r; ra|]. intros _. split; [reflexivity|]. lia.
Qed.
(** the phase as the receiver computes it *)
Definition rx_cycles (p1 : dbl) (ppr : Z) : dbl := ddiv (dadd p1 (dmul c_0_0005 (dofZ ppr))) (ddiv GPS_C fr).
Lemma cycles_ab p1 R ppr : ab p1 R (3 / 10000000) -> 0 <= R <= 155000000 -> (-524288 <= ppr <= 524288)%Z -> ab (rx_cycles p1 ppr) ((R + IZR ppr / 2000) / lam) (5 / 1000000).
Proof.
  intros P RR H. assert (-524288 <= IZR ppr <= 524288) by (split; apply izr_le; lia). pose proof lam_range. pose proof lam_inv.
  assert (D : ab (dmul c_0_0005 (dofZ ppr)) (IZR ppr / 2000) (/ 1000000000000)).
  { apply (ab_eq _ (5 / 10000 * IZR ppr)); [|field]. apply (ab_mul 9 (5 / 10000) 524288 _ _ _ _ (5 / 10000000000000000000) 0); [apply c0005_ab|apply ab_Z; lia|lia|ra|ra|bl|bl]. }
  assert (S : ab (dadd p1 (dmul c_0_0005 (dofZ ppr))) (R + IZR ppr / 2000) (4 / 10000000)).
  { apply (ab_add 28 155001000 _ _ _ _ (3 / 10000000) (/ 1000000000000)); [exact P|exact D|lia|ra|bl|bl]. }
  apply (ab_div 30 155001000 (55 / 10) _ _ _ _ (4 / 10000000) (/ 72057594037927936)); [exact S|apply lam_ab|lia|ra|lra|lra|lra|bl|bl].
Qed.
Lemma cycles_in_ab p1 R : ab p1 R (3 / 10000000) -> 0 <= R <= 155000000 -> ab (ddiv p1 (ddiv GPS_C fr)) (R / lam) (37 / 10000000).
Proof.
  intros P RR. pose proof lam_range. pose proof lam_inv.
  apply (ab_div 30 155000000 (55 / 10) _ _ _ _ (3 / 10000000) (/ 72057594037927936)); [exact P|apply lam_ab|lia|ra|lra|lra|lra|bl|bl].
Qed.
(** sender and receiver together: [N] = phase in 1/256 cycle, [R] = the transmitted first pseudorange in metres *)
Lemma phase_trip N prc p1 R : (Z.abs N <= 2 ^ 40)%Z -> ab prc R (3 / 10000000) -> ab p1 R (3 / 10000000) -> 0 <= R <= 77000000 ->
  forall cpd, ab cpd (IZR N / 256) 0 -> Rabs (IZR N / 256 * lam - R) <= 1000001 / 1 ->
  exists ppr j, diff_d (dsub cpd (ddiv prc (ddiv GPS_C fr))) fr = Some ppr /\ (-524288 <= ppr <= 524288)%Z /\
    (Rabs (IZR N / 256 * lam - R) <= 2621 / 10 -> j = 0%Z /\ (-524287 <= ppr <= 524287)%Z) /\
    split256 (- 2 ^ 31) (2 ^ 31 - 1) (rx_cycles p1 ppr) = Some (N / 256 + 1500 * j, N mod 256)%Z /\ (N / 256 + 1500 * j <= 2 ^ 31 - 1)%Z.
Proof.
  intros HN P0 P1 RR cpd CA NB. pose proof lam_range as LR. pose proof lam_inv as LI. pose proof W_range as WR.
  assert (IL : lam * / lam = 1) by (apply Rinv_r; lra). assert (L0 : 0 < / lam) by (apply Rinv_0_lt_compat; lra).
  set (F := IZR N / 256) in *. set (X := F - R / lam).
  assert (XW : X * W = 2000 * (F * lam - R)). { unfold X, W, Rdiv. transitivity (2000 * (F * lam - R * (lam * / lam))); [ring|rewrite IL; ring]. }
  assert (XA : ab (dsub cpd (ddiv prc (ddiv GPS_C fr))) X (4 / 1000000)).
  { apply (ab_sub 25 6000000 _ _ _ _ 0 (37 / 10000000)); [exact CA|apply cycles_in_ab; [exact P0|lra]|lia| |bl|bl].
    fold X. apply Rmult_le_reg_r with W; [lra|]. rewrite <- (Rabs_pos_eq W) at 1 by lra. rewrite <- Rabs_mult, XW. apply Rabs_le_inv in NB. apply rabs_le. lra. }
  destruct (diff_spec _ X XA) as (ppr & j & E & PR & NJ & Z0). { rewrite XW. apply Rabs_le_inv in NB. apply rabs_le. lra. }
  exists ppr, j. split; [exact E|]. split; [exact PR|]. split. { intros Q. apply Z0. rewrite XW. apply Rabs_le_inv in Q. apply rabs_le. lra. }
  pose proof (cycles_ab p1 R ppr P1 ltac:(lra) PR) as CY.
  set (N' := (N + 256 * (1500 * j))%Z).
  assert (NV : IZR N' / 256 = F + 1500 * IZR j) by (unfold N', F; rewrite plus_IZR, !mult_IZR; field).
  assert (DV : Rabs ((R + IZR ppr / 2000) / lam - IZR N' / 256) <= 15 / 10000).
  { rewrite NV. apply Rmult_le_reg_r with W; [lra|]. rewrite <- (Rabs_pos_eq W) at 1 by lra. rewrite <- Rabs_mult.
    replace (((R + IZR ppr / 2000) / lam - (F + 1500 * IZR j)) * W) with (IZR ppr - (X + 1500 * IZR j) * W); [lra|].
    unfold X, W, Rdiv. transitivity (IZR ppr * (lam * / lam) + 2000 * R * (lam * / lam) - (F + 1500 * IZR j) * (lam * 2000)); [|field; lra]. rewrite IL. transitivity (IZR ppr + 2000 * R * (lam * / lam) - (F + 1500 * IZR j) * (lam * 2000)); [ring|rewrite IL; ring]. }
  assert (NR : -600000000 <= IZR N' / 256 <= 600000000).
  { assert (Q : Rabs ((R + IZR ppr / 2000) / lam) <= 78000000 * (55 / 10)).
    { assert (-524288 <= IZR ppr <= 524288) by (split; apply izr_le; lia). unfold Rdiv at 1. rewrite Rabs_mult, (Rabs_pos_eq (/ lam)) by lra.
      apply Rmult_le_compat; [apply Rabs_pos|lra|ra|lra]. }
    apply Rabs_le_inv in Q. apply Rabs_le_inv in DV. lra. }
  assert (NZ : (-153600000000 <= N' <= 153600000000)%Z) by (split; apply le_IZR; lra).
  destruct (ab_move _ _ (IZR N' / 256) _ _ (/ 520) CY DV ltac:(lra)) as [FC VC].
  assert (D1 : (N' / 256 = N / 256 + 1500 * j)%Z) by (unfold N'; rewrite (Z.mul_comm 256), Z.div_add by lia; reflexivity).
  assert (D2 : (N' mod 256 = N mod 256)%Z) by (unfold N'; rewrite (Z.mul_comm 256), Z.mod_add by lia; reflexivity).
  rewrite <- D1, <- D2. split; [|clear - NZ; lia]. apply split_back; [exact FC|exact VC|clear - NZ; lia|lia].
Qed.
End Phase.
