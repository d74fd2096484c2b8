(** Proofs about NovAtel inertial measurements *)
From Coq Require Import Reals Lra.
From Flocq Require Import Core IEEE754.Binary IEEE754.Bits.
From Verif Require Import Base Double_model Double_proofs UbxObs_model UbxObs_proofs Esf_model Esf_proofs Ixcom_model Ixcom_float_proofs Signals_model Novatel_model NmeaFields_proofs SbpEph_model SbpEph_spec SbpEph_proofs Near_proofs Exact_proofs Pi_proofs NovSbp_model NovSbp_spec NovVal_proofs.
Open Scope R_scope.

Lemma n_mid n q : (Z.abs n <= 2 ^ 53)%Z -> bpow radix2 (-800) <= q <= bpow radix2 800 -> mid (IZR n * q).
Proof.
  intros N [L U]. destruct (Z.eq_dec n 0) as [-> | Z]; [left; ring|right]. pose proof (bpow_gt_0 radix2 (-800)).
  rewrite Rabs_mult, <- abs_IZR, (Rabs_pos_eq q) by lra. split.
  - apply Rle_trans with (1 * bpow radix2 (-800)); [rewrite Rmult_1_l; apply bpow_le; lia|]. apply Rmult_le_compat; [lra|lra|apply IZR_le; lia|lra].
  - apply Rle_trans with (bpow radix2 53 * bpow radix2 800); [|rewrite <- bpow_plus; apply bpow_le; lia].
    apply Rmult_le_compat; [apply IZR_le; lia|lra| |lra]. rewrite <- pow_bpow by lia. apply IZR_le. exact N.
Qed.
(** bounds of a scale factor or rate *)
Definition wid (k : Z) (q : R) : Prop := bpow radix2 (- k) <= q <= bpow radix2 k.
Lemma wid_mul j k q r : wid j q -> wid k r -> wid (j + k) (q * r).
Proof.
  intros [A B] [C D]. pose proof (bpow_gt_0 radix2 (- j)). pose proof (bpow_gt_0 radix2 (- k)). split.
  - replace (- (j + k))%Z with (- j + - k)%Z by lia. rewrite bpow_plus. apply Rmult_le_compat; lra.
  - rewrite bpow_plus. apply Rmult_le_compat; lra.
Qed.
Lemma wid_inv k q : wid k q -> wid k (/ q).
Proof.
  intros [A B]. pose proof (bpow_gt_0 radix2 (- k)). split.
  - rewrite bpow_opp. apply Rinv_le; [lra|exact B].
  - rewrite <- (Rinv_inv (bpow radix2 k)), <- bpow_opp. apply Rinv_le; [lra|exact A].
Qed.
Lemma wid_up j k q : (j <= k)%Z -> wid j q -> wid k q.
Proof. intros J [A B]. split; [eapply Rle_trans; [|exact A]|eapply Rle_trans; [exact B|]]; apply bpow_le; lia. Qed.
Lemma wid_pos k q : wid k q -> 0 < q. Proof. intros [A _]. pose proof (bpow_gt_0 radix2 (- k)). lra. Qed.
Lemma wid_mid n k q : (Z.abs n <= 2 ^ 53)%Z -> (k <= 800)%Z -> wid k q -> mid (IZR n * q).
Proof. intros N K W. apply n_mid; [exact N|]. exact (wid_up _ _ _ K W). Qed.
Lemma wid_val k q : (k <= 800)%Z -> wid k q -> mid q.
Proof. intros K W. replace q with (IZR 1 * q) by ring. apply (wid_mid 1 k); [lia|exact K|exact W]. Qed.
Lemma wid_Z n : (1 <= n <= 2 ^ 40)%Z -> wid 40 (IZR n).
Proof. intros N. split; [apply Rle_trans with 1; [change 1 with (bpow radix2 0); apply bpow_le; lia|apply IZR_le; lia]|]. rewrite <- pow_bpow by lia. apply IZR_le. lia. Qed.

(** saturation of a value known up to a relative error *)
Lemma clamp_big lo hi v w : (IZR hi <= v /\ IZR hi <= w) \/ (v <= IZR lo /\ w <= IZR lo) -> (lo <= hi)%Z -> Rclamp lo hi v = Rclamp lo hi w.
Proof.
  intros H L. apply IZR_le in L. unfold Rclamp. destruct H as [[A B]|[A B]].
  - rewrite !Rmin_left by assumption. reflexivity.
  - rewrite !Rmin_right by lra. rewrite !Rmax_left by assumption. reflexivity.
Qed.
Lemma val_sat lo hi x v E : (- 2 ^ 31 <= lo <= hi)%Z -> (hi <= 2 ^ 31)%Z -> val x v E -> E <= / 17592186044416 ->
  exists n, dsat lo hi x = Some n /\ (lo <= n <= hi)%Z /\ Rabs (IZR n - Rclamp lo hi v) <= / 2 + / 2048.
Proof.
  intros L H [F (e & EB & V)] ES. apply Rabs_le_inv in EB. assert (EP : 0 <= E) by lra.
  destruct (Rle_dec (Rabs v) 8589934592) as [S|S].
  - apply dsat_near; [lia|exact F|]. rewrite V. replace (v * (1 + e) - v) with (v * e) by ring. rewrite Rabs_mult.
    apply Rle_trans with (8589934592 * / 17592186044416); [|lra]. apply Rmult_le_compat; [apply Rabs_pos|apply Rabs_pos|exact S|apply Rabs_le; lra].
  - destruct (dsat_near lo hi x (dR x) 0 ltac:(lia) F) as (n & Q & N & B); [rewrite Rminus_diag_eq, Rabs_R0 by reflexivity; lra|].
    exists n. split; [exact Q|]. split; [exact N|]. rewrite (clamp_big lo hi v (dR x)); [lra| |lia].
    assert (IZR hi <= 2147483648) by (apply (IZR_le hi (2 ^ 31)); lia). assert (-2147483648 <= IZR lo) by (apply (IZR_le (- 2 ^ 31) lo); lia).
    rewrite V. assert (- (1 / 2) <= e <= 1 / 2) by lra. destruct (Rle_dec 0 v) as [P|P].
    + left. rewrite Rabs_pos_eq in S by lra. split; nra.
    + right. rewrite Rabs_left in S by lra. split; nra.
Qed.
(** constants *)
Lemma const_val x m e v : dme x = Some (m, e) -> 0 < v -> Rabs (IZR m * bpow radix2 e - v) <= 8 * u53 * v -> val x v (8 * u53).
Proof.
  intros D P B. destruct (dme_spec _ _ _ D) as [F V]. split; [exact F|]. exists ((IZR m * bpow radix2 e - v) / v). split.
  - unfold Rdiv. rewrite Rabs_mult, Rabs_inv, (Rabs_pos_eq v) by lra. apply Rmult_le_reg_r with v; [exact P|]. rewrite Rmult_assoc, Rinv_l, Rmult_1_r by lra. exact B.
  - rewrite V. field. lra.
Qed.

Lemma pi_bounds : 7074237752028439 / 2251799813685248 <= PI <= 7074237752028441 / 2251799813685248.
Proof. pose proof pi_close as H. apply Rabs_le_inv in H. lra. Qed.
Ltac cval := eapply const_val; [vm_compute; reflexivity|pose proof pi_bounds; lra|unfold bpow; cbn [Z.pow_pos Pos.iter radix_val radix2]; pose proof pi_bounds; apply Rabs_le; unfold u53; cbn; lra].
Ltac cwid := pose proof pi_bounds; split; unfold bpow; cbn [Z.pow_pos Pos.iter radix_val radix2]; cbn; lra.
Lemma pi_dval : val d_pi PI (8 * u53).
Proof. cval. Qed.
Lemma v_0_008 : val c_0_008 (8 / 1000) (8 * u53). Proof. cval. Qed.
Lemma gyro_const : val (ldexp (dofZ 1) (-33)) (/ IZR (2 ^ 33)) (8 * u53) /\ val (ddiv c_0_1 (dmul (dofZ 3600) (dofZ 256))) (1 / 10 / (3600 * 256)) (8 * u53) /\
  val (deg_to_rad (ddiv (ldexp c_0_1 (-8)) (dofZ 3600))) (degrees (1 / 10 / 256 / 3600)) (8 * u53) /\ val (ldexp (dofZ 1) (-19)) (/ IZR (2 ^ 19)) (8 * u53) /\
  val c_1em9 (1 / 1000000000) (8 * u53) /\ val (deg_to_rad (ldexp (dofZ 720) (-31))) (degrees (720 / IZR (2 ^ 31))) (8 * u53) /\
  val (deg_to_rad (ldexp (dofZ 1) (-21))) (degrees (/ IZR (2 ^ 21))) (8 * u53) /\
  val (deg_to_rad (ddiv (ddiv c_0_0151515 (dofZ 65536)) (dofZ 200))) (degrees (151515 / 10000000 / 65536 / 200)) (8 * u53).
Proof. unfold degrees. repeat split; try (change (2 ^ 33)%Z with 8589934592%Z); cval. Qed.
Lemma wid_const k v : bpow radix2 (- k) <= v -> v <= bpow radix2 k -> wid k v. Proof. split; assumption. Qed.
Lemma u53_small : 0 <= u53 <= / 1000000. Proof. unfold u53; lra. Qed.
(** val_mul, val_div with round error budgets: a, b multiples of u53 *)
Lemma vmul x y a b (m n k : R) : val x a (m * u53) -> val y b (n * u53) -> mid (a * b) -> 0 <= m <= 1000 -> 0 <= n <= 1000 -> m + n + 3 <= k -> val (dmul x y) (a * b) (k * u53).
Proof.
  intros X Y M Hm Hn K. pose proof u53_small as U. assert (m * u53 * (n * u53) <= u53) by (replace (m * u53 * (n * u53)) with (u53 * (m * n * u53)) by ring;
    apply Rle_trans with (u53 * 1); [apply Rmult_le_compat_l; [lra|]|lra]; apply Rle_trans with (1000 * 1000 * / 1000000); [apply Rmult_le_compat; [apply Rmult_le_pos; lra|lra|apply Rmult_le_compat; lra|lra]|lra]).
  apply (val_mul x y a b (m * u53) (n * u53)); try assumption; nra.
Qed.
Lemma vdiv x y a b (m n k : R) : val x a (m * u53) -> val y b (n * u53) -> b <> 0 -> mid (a / b) -> 0 <= m <= 1000 -> 0 <= n <= 1000 -> 2 * (m + n) + 2 <= k -> val (ddiv x y) (a / b) (k * u53).
Proof.
  intros X Y B M Hm Hn K. pose proof u53_small as U. apply (val_div x y a b (m * u53) (n * u53)); try assumption; nra.
Qed.
Lemma vZ n : (Z.abs n <= 2 ^ 53)%Z -> val (dofZ n) (IZR n) (0 * u53).
Proof. intros H. apply (val_weaken _ _ 0); [apply val_Z; exact H|lra]. Qed.
Lemma wid_PI : wid 2 PI. Proof. cwid. Qed.
Lemma wid_IZR n : (1 <= n <= 2 ^ 40)%Z -> wid 40 (IZR n). Proof. apply wid_Z. Qed.
Lemma deg_val x a m k j : val x a (m * u53) -> wid j a -> (j <= 300)%Z -> 0 <= m <= 100 -> 2 * (m + 11) + 2 <= k -> val (deg_to_rad x) (degrees a) (k * u53) /\ wid (j + 42) (degrees a).
Proof.
  intros X W J M K. unfold deg_to_rad, degrees.
  pose proof (wid_mul _ _ _ _ W wid_PI) as W1. pose proof (wid_mul _ _ _ _ W1 (wid_inv _ _ (wid_Z 180 ltac:(lia)))) as W2.
  split; [|eapply wid_up; [|exact W2]; lia].
  apply (vdiv _ _ _ _ (m + 11) 0); [|apply vZ; lia|lra| |lra|lra|lra].
  - apply (vmul _ _ _ _ m 8); [exact X|exact pi_dval| |lra|lra|lra]. eapply wid_val; [|exact W1]. lia.
  - eapply wid_val; [|exact W2]. lia.
Qed.
Lemma epson_val rate r : val rate r (2 * u53) -> wid 40 r -> val (ddiv (ddiv c_0_008 (dofZ 65536)) rate) (8 / 1000 / 65536 / r) (42 * u53) /\ wid 64 (8 / 1000 / 65536 / r).
Proof.
  intros V W. assert (W0 : wid 24 (8 / 1000 / 65536)) by cwid. pose proof (wid_mul _ _ _ _ W0 (wid_inv _ _ W)) as W1. split; [|exact W1].
  apply (vdiv _ _ _ _ 18 2); [|exact V|pose proof (wid_pos _ _ W); lra|eapply wid_val; [|exact W1]; lia|lra|lra|lra].
  apply (vdiv _ _ _ _ 8 0); [exact v_0_008|apply vZ; lia|lra|eapply wid_val; [|exact W0]; lia|lra|lra|lra].
Qed.
Lemma gyro_val ty rate r G : val rate r (2 * u53) -> wid 40 r -> gyro_lsb ty r G -> exists g, gyro_scale ty rate = Some g /\ val g G (108 * u53) /\ wid 120 G.
Proof.
  intros V W L. destruct gyro_const as (C1 & C2 & C3 & C4 & C5 & C6 & C7 & C8). pose proof u53_small.
  assert (Wk : forall x a, val x a (8 * u53) -> val x a (108 * u53)) by (intros x a Hx; apply (val_weaken _ _ _ _ Hx); lra).
  inversion L; subst.
  - eexists. split; [|split; [apply Wk, C1|cwid]]. cbn [In] in H0. repeat (destruct H0 as [<-|H0]; [reflexivity|]). contradiction.
  - eexists. split; [reflexivity|]. split; [apply Wk, C2|cwid].
  - eexists. split; [reflexivity|]. split; [apply Wk, C3|unfold degrees; cwid].
  - eexists. split; [reflexivity|]. split; [apply Wk, C4|cwid].
  - eexists. split; [reflexivity|]. split; [apply Wk, C5|cwid].
  - eexists. split; [reflexivity|]. split; [apply Wk, C6|unfold degrees; cwid].
  - eexists. split; [|split; [apply Wk, C7|unfold degrees; cwid]]. destruct H0 as [-> | ->]; reflexivity.
  - destruct (epson_val rate r V W) as [E1 E2]. destruct (deg_val _ _ _ 108 _ E1 E2) as [D1 D2]; [lia|lra|lra|].
    eexists. split; [|split; [exact D1|eapply wid_up; [|exact D2]; lia]]. destruct H0 as [-> | ->]; reflexivity.
  - eexists. split; [reflexivity|]. split; [apply Wk, C8|unfold degrees; cwid].
Qed.
Lemma accel_const : val (feet_to_metres (ldexp (dofZ 1) (-27))) (3048 / 10000 / IZR (2 ^ 27)) (8 * u53) /\ val (feet_to_metres (ldexp (dofZ 1) (-26))) (3048 / 10000 / IZR (2 ^ 26)) (8 * u53) /\
  val (ldexp (dofZ 1) (-29)) (/ IZR (2 ^ 29)) (8 * u53) /\ val (ldexp c_0_05 (-15)) (5 / 100 / IZR (2 ^ 15)) (8 * u53) /\ val (ldexp (dofZ 1) (-14)) (/ IZR (2 ^ 14)) (8 * u53) /\
  val c_2em8 (2 / 100000000) (8 * u53) /\ val (ldexp (dofZ 200) (-31)) (200 / IZR (2 ^ 31)) (8 * u53) /\ val (ldexp (dofZ 1) (-22)) (/ IZR (2 ^ 22)) (8 * u53).
Proof. repeat split; cval. Qed.
Lemma accel_val ty rate r A : val rate r (2 * u53) -> wid 40 r -> accel_lsb ty r A -> exists a, accel_scale ty rate = Some a /\ val a A (108 * u53) /\ wid 120 A.
Proof.
  intros V W L. destruct accel_const as (C1 & C2 & C3 & C4 & C5 & C6 & C7 & C8). pose proof u53_small.
  assert (Wk : forall x a, val x a (8 * u53) -> val x a (108 * u53)) by (intros x a Hx; apply (val_weaken _ _ _ _ Hx); lra).
  inversion L; subst.
  - eexists. split; [|split; [apply Wk, C1|cwid]]. cbn [In] in H0. repeat (destruct H0 as [<-|H0]; [reflexivity|]). contradiction.
  - eexists. split; [reflexivity|]. split; [apply Wk, C2|cwid].
  - eexists. split; [reflexivity|]. split; [apply Wk, C3|cwid].
  - eexists. split; [|split; [apply Wk, C4|cwid]]. destruct H0 as [-> | ->]; reflexivity.
  - eexists. split; [reflexivity|]. split; [apply Wk, C5|cwid].
  - eexists. split; [reflexivity|]. split; [apply Wk, C6|cwid].
  - eexists. split; [reflexivity|]. split; [apply Wk, C7|cwid].
  - eexists. split; [|split; [apply Wk, C8|cwid]]. destruct H0 as [-> | ->]; reflexivity.
Qed.
(** ** measurements *)
Section Meas.
Variables (g rate : dbl) (G r : R).
Hypotheses (VG : val g G (108 * u53)) (WG : wid 120 G) (VR : val rate r (2 * u53)) (WR : wid 40 r).
Lemma per_second n : (Z.abs n <= 2 ^ 31)%Z -> val (dmul (dmul (dofZ n) g) rate) (IZR n * G * r) (117 * u53).
Proof using VG WG VR WR.
  intros N. apply (vmul _ _ _ _ 112 2); [|exact VR| |lra|lra|lra].
  - apply (vmul _ _ _ _ 0 108); [apply vZ; lia|exact VG| |lra|lra|lra]. apply (wid_mid n 120); [lia|lia|exact WG].
  - rewrite Rmult_assoc. apply (wid_mid n 160); [lia|lia|]. apply (wid_mul 120 40); assumption.
Qed.
Lemma in_degrees n : (Z.abs n <= 2 ^ 31)%Z -> val (rad_to_deg (dmul (dmul (dofZ n) g) rate)) (IZR n * G * r * 180 / PI) (260 * u53).
Proof using VG WG VR WR.
  intros N. unfold rad_to_deg.
  assert (W : wid 200 (G * r * 180)) by (apply (wid_mul 160 40); [apply (wid_mul 120 40); assumption|apply wid_Z; lia]).
  assert (E : IZR n * G * r * 180 = IZR n * (G * r * 180)) by ring.
  apply (vdiv _ _ _ _ 120 8); [|exact pi_dval|pose proof pi_bounds; lra| |lra|lra|lra].
  - apply (vmul _ _ _ _ 117 0); [apply per_second; exact N|apply vZ; lia| |lra|lra|lra]. rewrite E. apply (wid_mid n 200); [lia|lia|exact W].
  - rewrite E. unfold Rdiv. rewrite Rmult_assoc. apply (wid_mid n 202); [lia|lia|]. apply (wid_mul 200 2); [exact W|apply wid_inv, wid_PI].
Qed.
Lemma E180 n : IZR n * G * r * 180 / PI = IZR n * (G * r * 180 * / PI). Proof. unfold Rdiv. ring. Qed.
Lemma W180 : wid 202 (G * r * 180 * / PI).
Proof using WG WR. apply (wid_mul 200 2); [|apply wid_inv, wid_PI]. apply (wid_mul 160 40); [apply (wid_mul 120 40); assumption|apply wid_Z; lia]. Qed.
Lemma tol k : 0 <= k <= 512 -> k * u53 <= / 17592186044416. Proof. unfold u53. lra. Qed.
Lemma udeg_spec n : (Z.abs n <= 2 ^ 31)%Z -> exists z, gyro_udeg n g rate = Some z /\ near32 z (udeg_per_s n G r) (/ 2048).
Proof using VG WG VR WR.
  intros N. unfold gyro_udeg, udeg_per_s.
  assert (V : val (dmul (rad_to_deg (dmul (dmul (dofZ n) g) rate)) (dofZ 1000000)) (IZR n * G * r * 180 / PI * 1000000) (263 * u53)).
  { apply (vmul _ _ _ _ 260 0); [apply in_degrees; exact N|apply vZ; lia| |lra|lra|lra]. rewrite E180, Rmult_assoc. apply (wid_mid n 242); [lia|lia|]. apply (wid_mul 202 40); [exact W180|apply wid_Z; lia]. }
  destruct (val_sat (- 2 ^ 31) (2 ^ 31 - 1) _ _ _ ltac:(lia) ltac:(lia) V (tol 263 ltac:(lra))) as (z & Q & B & C). exists z. split; [exact Q|]. split; [lia|exact C].
Qed.
Lemma units_spec n : (Z.abs n <= 2 ^ 31)%Z -> exists z, gyro_counts n g rate = Some z /\ near16 z (gyro_units n G r) (/ 2048).
Proof using VG WG VR WR.
  intros N. unfold gyro_counts, gyro_units.
  assert (E : IZR n * G * r * 180 / PI * 32768 = IZR n * (G * r * 180 * / PI * 32768)) by (rewrite E180; ring).
  assert (W : wid 242 (G * r * 180 * / PI * 32768)) by (apply (wid_mul 202 40); [exact W180|apply wid_Z; lia]).
  assert (V0 : val (dmul (rad_to_deg (dmul (dmul (dofZ n) g) rate)) (dofZ 32768)) (IZR n * G * r * 180 / PI * 32768) (263 * u53)).
  { apply (vmul _ _ _ _ 260 0); [apply in_degrees; exact N|apply vZ; lia| |lra|lra|lra]. rewrite E. apply (wid_mid n 242); [lia|lia|exact W]. }
  assert (V : val (ddiv (dmul (rad_to_deg (dmul (dmul (dofZ n) g) rate)) (dofZ 32768)) (dofZ 125)) (IZR n * G * r * 180 / PI * 32768 / 125) (265 * u53)).
  { pose proof u53_small. apply (val_div0 _ _ _ _ (263 * u53)); [exact V0|apply val_Z; lia|lra| |lra|lra]. rewrite E. unfold Rdiv. rewrite Rmult_assoc. apply (wid_mid n 282); [lia|lia|].
    apply (wid_mul 242 40); [exact W|apply wid_inv, wid_Z; lia]. }
  destruct (val_sat (- 2 ^ 15) (2 ^ 15 - 1) _ _ _ ltac:(lia) ltac:(lia) V (tol 265 ltac:(lra))) as (z & Q & B & C). exists z. split; [exact Q|]. split; [lia|exact C].
Qed.
Lemma v_8g : val (dmul (dofZ 8) c_9_806) (8 * gravity) (8 * u53). Proof. unfold gravity. cval. Qed.
Lemma acc_spec n : (Z.abs n <= 2 ^ 31)%Z -> exists z, acc_counts n g rate = Some z /\ near16 z (accel_units n G r) (/ 2048).
Proof using VG WG VR WR.
  intros N. unfold acc_counts, accel_units.
  assert (E : IZR n * G * r * 32768 = IZR n * (G * r * 32768)) by ring.
  assert (W : wid 200 (G * r * 32768)) by (apply (wid_mul 160 40); [apply (wid_mul 120 40); assumption|apply wid_Z; lia]).
  assert (Wg : wid 10 (8 * gravity)) by (unfold gravity; cwid).
  assert (V : val (ddiv (dmul (dmul (dmul (dofZ n) g) rate) (dofZ 32768)) (dmul (dofZ 8) c_9_806)) (IZR n * G * r * 32768 / (8 * gravity)) (260 * u53)).
  { apply (vdiv _ _ _ _ 120 8); [|exact v_8g|pose proof (wid_pos _ _ Wg); lra| |lra|lra|lra].
    - apply (vmul _ _ _ _ 117 0); [apply per_second; exact N|apply vZ; lia| |lra|lra|lra]. rewrite E. apply (wid_mid n 200); [lia|lia|exact W].
    - rewrite E. unfold Rdiv. rewrite Rmult_assoc. apply (wid_mid n 210); [lia|lia|]. apply (wid_mul 200 10); [exact W|apply wid_inv, Wg]. }
  destruct (val_sat (- 2 ^ 15) (2 ^ 15 - 1) _ _ _ ltac:(lia) ltac:(lia) V (tol 260 ltac:(lra))) as (z & Q & B & C). exists z. split; [exact Q|]. split; [lia|exact C].
Qed.
End Meas.
(** the Epson accelerometers: milligee_to_metres multiplies by 1000 *)
Lemma epson_acc ty rate r A : val rate r (2 * u53) -> wid 40 r -> epson_lsb ty r A -> exists a, accel_scale ty rate = Some a /\ val a (1000000 * A) (108 * u53) /\ wid 120 (1000000 * A).
Proof.
  intros V W L. pose proof u53_small. inversion L; subst.
  - assert (V2 : val c_0_2 (2 / 10) (8 * u53)) by cval. assert (Vg : val c_9_806 gravity (8 * u53)) by (unfold gravity; cval).
    assert (W0 : wid 24 (2 / 10 / 65536)) by cwid. pose proof (wid_mul _ _ _ _ W0 (wid_inv _ _ W)) as W1. pose proof (wid_mul _ _ _ _ W1 (wid_Z 1000 ltac:(lia))) as W2.
    assert (Wg : wid 10 gravity) by (unfold gravity; cwid). pose proof (wid_mul _ _ _ _ W2 Wg) as W3.
    assert (Q : 1000000 * (2 / 10 / 65536 / r * (gravity / 1000)) = 2 / 10 / 65536 * / r * 1000 * gravity) by (field; pose proof (wid_pos _ _ W); lra).
    rewrite Q. eexists. split; [destruct H0 as [-> | ->]; reflexivity|]. split; [|eapply wid_up; [|exact W3]; lia].
    unfold milligee_to_metres. apply (vmul _ _ _ _ 45 8); [|exact Vg|eapply wid_val; [|exact W3]; lia|lra|lra|lra].
    apply (vmul _ _ _ _ 42 0); [|apply vZ; lia|eapply wid_val; [|exact W2]; lia|lra|lra|lra].
    apply (vdiv _ _ _ _ 18 2); [|exact V|pose proof (wid_pos _ _ W); lra|eapply wid_val; [|exact W1]; lia|lra|lra|lra].
    apply (vdiv _ _ _ _ 8 0); [exact V2|apply vZ; lia|lra|eapply wid_val; [|exact W0]; lia|lra|lra|lra].
  - eexists. split; [reflexivity|]. split; [|unfold gravity; cwid]. apply (val_weaken _ _ (8 * u53)); [unfold gravity; cval|lra].
Qed.
(** ** the state *)
Section Hist.
Variables (elt : dbl -> Z) (sid_valid : Z -> code -> bool) (geoid : dbl -> dbl -> dbl) (cosf sinf : dbl -> dbl).
Notation step := (nov_step elt sid_valid geoid cosf sinf).
Notation run := (nov_run elt sid_valid geoid cosf sinf).
Open Scope Z_scope.
Definition imu_time (st : nstate) : Z * Z := (ns_imu_wn st, ns_imu_tow st).
Lemma step_imu st h b st1 out : step st (h, b) = Some (st1, out) ->
  imu_time st1 = match b with NFields _ => if nh_id h =? 1462 then (nh_week h, u32 (nh_ms h)) else imu_time st | _ => imu_time st end.
Proof.
  unfold nov_step. destruct b as [f|l].
  2:{ destruct (write_range_cmp elt sid_valid h l); [|discriminate]. intros [= <- <-]. reflexivity. }
  destruct (Z.eqb_spec (nh_id h) 7) as [->|N1].
  { destruct (write_gps_ephem f); [|discriminate]. intros [= <- <-]. reflexivity. }
  destruct (Z.eqb_spec (nh_id h) 42) as [->|N2].
  { unfold write_best_pos, send_time. cbv zeta. destruct (float_to_u16 _); [|discriminate]. destruct (float_to_u16 _); [|discriminate]. intros Q.
    assert (Q' := f_equal (fun o => match o with Some p => imu_time (fst p) | None => (0, 0) end) Q). cbv beta iota in Q'. cbn [fst] in Q'. rewrite <- Q'. reflexivity. }
  destruct (Z.eqb_spec (nh_id h) 99) as [->|N3].
  { unfold write_best_vel, send_time. cbv zeta. destruct (sat32 _); [|discriminate]. destruct (sat32 _); [|discriminate]. destruct (sat32 _) as [v|]; [|discriminate]. destruct (v =? - 2 ^ 31); [discriminate|]. intros Q.
    assert (Q' := f_equal (fun o => match o with Some p => imu_time (fst p) | None => (0, 0) end) Q). cbv beta iota in Q'. cbn [fst] in Q'. rewrite <- Q'. reflexivity. }
  destruct (Z.eqb_spec (nh_id h) 263) as [->|N4].
  { destruct (write_ins_att h f); [|discriminate]. intros [= <- <-]. reflexivity. }
  destruct (Z.eqb_spec (nh_id h) 1462) as [E5|N5].
  { unfold write_raw_imu. destruct (negb _); [discriminate|]. destruct (angular_rate st h f); [|discriminate]. destruct (imu_raw st h f); [|discriminate]. cbv zeta. intros Q.
    assert (Q' := f_equal (fun o => match o with Some p => imu_time (fst p) | None => (0, 0) end) Q). cbv beta iota in Q'. cbn [fst] in Q'. rewrite <- Q'. reflexivity. }
  intros [= <- <-]. reflexivity.
Qed.
Lemma run_imu cs : forall st st1 out, run st cs = Some (st1, out) -> imu_time st1 = match last_imu cs with Some h => (nh_week h, u32 (nh_ms h)) | None => imu_time st end.
Proof.
  induction cs as [|[h b] cs IH]; intros st st1 out; cbn [nov_run]; [intros [= <- <-]; reflexivity|].
  destruct (step st (h, b)) as [[s1 o1]|] eqn:E; [|discriminate]. destruct (run s1 cs) as [[s2 o2]|] eqn:R; [|discriminate].
  intros Q. assert (Q' := f_equal (fun o => match o with Some p => fst p | None => st end) Q). cbv beta iota in Q'. cbn [fst] in Q'. subst st1.
  rewrite (IH _ _ _ R). cbn [last_imu]. destruct (last_imu cs); [reflexivity|]. rewrite (step_imu _ _ _ _ _ E). destruct b; [|reflexivity]. destruct (nh_id h =? 1462); reflexivity.
Qed.
Lemma last_imu_in cs h : last_imu cs = Some h -> exists b, In (h, b) cs.
Proof.
  induction cs as [|[h' b'] cs IH]; [discriminate|]. cbn [last_imu]. destruct (last_imu cs) as [h2|].
  - intros [= ->]. destruct (IH eq_refl) as (b & I). exists b. right. exact I.
  - destruct b' as [f|l]; [|discriminate]. destruct (nh_id h' =? 1462); [|discriminate]. intros [= ->]. exists (NFields f). left. reflexivity.
Qed.
Lemma nominal_val ty r : nominal ty r -> exists x, imu_rate_of_type ty = Some x /\ val x r (2 * u53)%R /\ wid 40 r.
Proof.
  pose proof u53_small. intros N. inversion N as [t I E1 E2|t I E1 E2|t I E1 E2]; subst; cbn [In] in I; eexists;
    (split; [repeat (destruct I as [<- | I]; [reflexivity|]); contradiction|]); (split; [apply (val_weaken _ _ 0); [apply val_Z; lia|lra]|apply wid_Z; lia]).
Qed.
Lemma rate_spec cs st out h ty r : run nstate0 cs = Some (st, out) -> (forall h b, In (h, b) cs -> 0 <= nh_ms h < 2 ^ 32) -> 0 <= nh_ms h < 2 ^ 32 -> sampling cs h ty r ->
  exists x, imu_rate st h ty = Some x /\ val x r (2 * u53)%R /\ wid 40 r.
Proof.
  intros R B H S. pose proof (run_imu _ _ _ _ R) as T. unfold imu_rate. unfold imu_time in T. unfold sampling in S.
  assert (U : u32 (nh_ms h) = nh_ms h) by (apply Z.mod_small; exact H). rewrite U.
  destruct (last_imu cs) as [h0|] eqn:L.
  - destruct (last_imu_in _ _ L) as (b & I). specialize (B _ _ I). pose proof (f_equal fst T) as T1. pose proof (f_equal snd T) as T2. cbn [fst snd] in T1, T2. rewrite T1, T2.
    assert (U0 : u32 (nh_ms h0) = nh_ms h0) by (apply Z.mod_small; exact B). rewrite U0. unfold compute_imu_rate.
    destruct (nh_week h0 =? 0); cbn [negb andb] in S |- *; [exact (nominal_val _ _ S)|].
    destruct (Z.ltb_spec 0 (nh_ms h0)) as [P|P]; cbn [andb] in S.
    + destruct (Z.eqb_spec (nh_ms h0) 0); [lia|]. cbn [negb andb]. destruct (Z.ltb_spec (nh_ms h0) (nh_ms h)) as [Q|Q].
      * destruct (Z.eqb_spec (nh_ms h) 0); [lia|]. cbn [negb andb]. subst r. eexists. split; [reflexivity|]. pose proof u53_small as US.
        assert (W : wid 40 (1000 / IZR (nh_ms h - nh_ms h0))%R).
        { assert (A : (1 <= IZR (nh_ms h - nh_ms h0) <= 4294967296)%R) by (split; apply IZR_le; lia). split.
          - change (bpow radix2 (- (40))) with (/ 1099511627776)%R. apply Rmult_le_reg_r with (IZR (nh_ms h - nh_ms h0)); [lra|]. unfold Rdiv. rewrite Rmult_assoc, Rinv_l, Rmult_1_r by lra. lra.
          - change (bpow radix2 40) with 1099511627776%R. apply Rmult_le_reg_r with (IZR (nh_ms h - nh_ms h0)); [lra|]. unfold Rdiv. rewrite Rmult_assoc, Rinv_l, Rmult_1_r by lra. lra. }
        split; [|exact W]. apply (val_div0 _ _ _ _ 0%R); [apply val_Z; lia|apply val_Z; lia|apply IZR_neq; lia|eapply wid_val; [|exact W]; lia|lra|lra].
      * rewrite andb_false_r. exact (nominal_val _ _ S).
    + destruct (Z.eqb_spec (nh_ms h0) 0); [|lia]. cbn [negb andb]. exact (nominal_val _ _ S).
  - pose proof (f_equal fst T) as T1. cbn [fst imu_time nstate0 ns_imu_wn] in T1. rewrite T1. change (compute_imu_rate 0 _ _) with (@None dbl). cbn [negb andb]. exact (nominal_val _ _ S).
Qed.
End Hist.
