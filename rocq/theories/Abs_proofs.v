(** Absolute-error calculus for double expressions: [ab x v e] says that the double x is finite and within e of v. *)
From Coq Require Import Reals Lra.
From Flocq Require Import Core IEEE754.Binary IEEE754.Bits.
From Verif Require Import Base Double_model Double_proofs NmeaFields_proofs Near_proofs Exact_proofs NovImu_proofs SbpEph_spec SbpEph_proofs MsmVal_model MsmVal_proofs.
Open Scope R_scope.

Definition ab (x : dbl) (v e : R) : Prop := dfin x = true /\ Rabs (dR x - v) <= e.
Lemma ab_pos x v e : ab x v e -> 0 <= e. Proof. intros [_ H]. pose proof (Rabs_pos (dR x - v)). lra. Qed.
Lemma ab_fin x v e : ab x v e -> dfin x = true. Proof. intros [H _]. exact H. Qed.
Lemma ab_iv x v e : ab x v e -> v - e <= dR x <= v + e. Proof. intros [_ H]. apply Rabs_le_inv in H. lra. Qed.
Lemma ab_weaken x v e f : ab x v e -> e <= f -> ab x v f. Proof. intros [F H] L. split; [exact F|lra]. Qed.
Lemma ab_eq x v w e : ab x v e -> v = w -> ab x w e. Proof. intros H <-. exact H. Qed.
Lemma ab_move x v w e d f : ab x v e -> Rabs (v - w) <= d -> e + d <= f -> ab x w f.
Proof. intros [F H] D L. split; [exact F|]. apply Rabs_le_inv in H. apply Rabs_le_inv in D. apply Rabs_le. lra. Qed.
Lemma ab_Z n : (Z.abs n <= 2 ^ 53)%Z -> ab (dofZ n) (IZR n) 0.
Proof. intros H. destruct (dofZ_exact n H) as [F V]. split; [exact F|]. rewrite V, Rminus_diag_eq, Rabs_R0 by reflexivity. lra. Qed.
Lemma ab_exact x v : dexact x v -> ab x v 0. Proof. intros H. exd H F V. split; [exact F|]. rewrite V, Rminus_diag_eq, Rabs_R0 by reflexivity. lra. Qed.
Lemma ab_val x v k e : val x v (k * u53) -> 0 <= k <= 1000 -> Rabs v * (k * u53) <= e -> ab x v e.
Proof. intros H K L. destruct (val_abs _ _ _ H K) as [F B]. split; [exact F|lra]. Qed.
Lemma ab_dR x v e B : ab x v e -> Rabs v <= B -> Rabs (dR x) <= B + e.
Proof. intros [_ H] L. replace (dR x) with ((dR x - v) + v) by ring. eapply Rle_trans; [apply Rabs_triang|]. lra. Qed.

Lemma ab_add k B x y a b e f g : ab x a e -> ab y b f -> (-1000 <= k <= 900)%Z -> Rabs (a + b) <= B -> B + e + f < bpow radix2 k -> e + f + bpow radix2 (k - 54) <= g -> ab (dadd x y) (a + b) g.
Proof.
  intros [F1 H1] [F2 H2] K HB L G.
  assert (D : Rabs (dR x + dR y - (a + b)) <= e + f) by (replace (dR x + dR y - (a + b)) with ((dR x - a) + (dR y - b)) by ring; eapply Rle_trans; [apply Rabs_triang|]; lra).
  destruct (add_near x y k F1 F2 K) as [F E].
  { replace (dR x + dR y) with ((dR x + dR y - (a + b)) + (a + b)) by ring. eapply Rle_lt_trans; [apply Rabs_triang|]. lra. }
  split; [exact F|]. replace (dR (dadd x y) - (a + b)) with ((dR (dadd x y) - (dR x + dR y)) + (dR x + dR y - (a + b))) by ring. eapply Rle_trans; [apply Rabs_triang|]. lra.
Qed.
Lemma ab_sub k B x y a b e f g : ab x a e -> ab y b f -> (-1000 <= k <= 900)%Z -> Rabs (a - b) <= B -> B + e + f < bpow radix2 k -> e + f + bpow radix2 (k - 54) <= g -> ab (dsub x y) (a - b) g.
Proof.
  intros [F1 H1] [F2 H2] K HB L G.
  assert (D : Rabs (dR x - dR y - (a - b)) <= e + f). { replace (dR x - dR y - (a - b)) with ((dR x - a) - (dR y - b)) by ring. eapply Rle_trans; [apply Rabs_triang|]. rewrite Rabs_Ropp. lra. }
  destruct (sub_near x y k F1 F2 K) as [F E].
  { replace (dR x - dR y) with ((dR x - dR y - (a - b)) + (a - b)) by ring. eapply Rle_lt_trans; [apply Rabs_triang|]. lra. }
  split; [exact F|]. replace (dR (dsub x y) - (a - b)) with ((dR (dsub x y) - (dR x - dR y)) + (dR x - dR y - (a - b))) by ring. eapply Rle_trans; [apply Rabs_triang|]. lra.
Qed.
(** factors with |a| <= A, |b| <= B *)
Lemma ab_mul k A B x y a b e f g : ab x a e -> ab y b f -> (-1000 <= k <= 900)%Z -> Rabs a <= A -> Rabs b <= B -> A * B + (A * f + B * e + e * f) < bpow radix2 k ->
  A * f + B * e + e * f + bpow radix2 (k - 54) <= g -> ab (dmul x y) (a * b) g.
Proof.
  intros H1 H2 K HA HB L G. pose proof (ab_pos _ _ _ H1) as E0. pose proof (ab_pos _ _ _ H2) as F0. destruct H1 as [F1 H1], H2 as [F2 H2].
  pose proof (Rabs_pos a). pose proof (Rabs_pos b).
  assert (D : Rabs (dR x * dR y - a * b) <= A * f + B * e + e * f).
  { replace (dR x * dR y - a * b) with (a * (dR y - b) + b * (dR x - a) + (dR x - a) * (dR y - b)) by ring.
    eapply Rle_trans; [apply Rabs_triang|]. apply Rplus_le_compat; [eapply Rle_trans; [apply Rabs_triang|]; apply Rplus_le_compat|]; rewrite Rabs_mult; apply Rmult_le_compat; try apply Rabs_pos; assumption. }
  assert (AB : Rabs (a * b) <= A * B) by (rewrite Rabs_mult; apply Rmult_le_compat; assumption).
  destruct (mul_near x y k F1 F2 K) as [F E].
  { replace (dR x * dR y) with ((dR x * dR y - a * b) + a * b) by ring. eapply Rle_lt_trans; [apply Rabs_triang|]. lra. }
  split; [exact F|]. replace (dR (dmul x y) - a * b) with ((dR (dmul x y) - dR x * dR y) + (dR x * dR y - a * b)) by ring. eapply Rle_trans; [apply Rabs_triang|]. lra.
Qed.
(** a divisor b >= b0 > 0, inverse at most I *)
Lemma ab_div k A I x y a b e f g : ab x a e -> ab y b f -> (-1000 <= k <= 900)%Z -> Rabs a <= A -> 0 < b -> / b <= I -> f * I <= / 2 ->
  A * I + 2 * I * (e + A * I * f) < bpow radix2 k -> 2 * I * (e + A * I * f) + bpow radix2 (k - 54) <= g -> ab (ddiv x y) (a / b) g.
Proof.
  intros H1 H2 K HA HB HI HF L G. pose proof (ab_pos _ _ _ H1) as E0. pose proof (ab_pos _ _ _ H2) as F0. destruct H1 as [F1 H1], H2 as [F2 H2]. apply Rabs_le_inv in H2.
  pose proof (Rabs_pos a). assert (I0 : 0 < / b) by (apply Rinv_0_lt_compat; exact HB).
  assert (FB : f <= b / 2). { apply Rmult_le_reg_r with (/ b); [exact I0|]. replace (b / 2 * / b) with (/ 2) by (field; lra). apply Rle_trans with (f * I); [apply Rmult_le_compat_l; lra|exact HF]. }
  assert (YP : b / 2 <= dR y) by lra. assert (NY : dR y <> 0) by lra.
  assert (IY : 0 < / dR y <= 2 * I).
  { split; [apply Rinv_0_lt_compat; lra|]. apply Rle_trans with (/ (b / 2)); [apply Rinv_le; lra|]. replace (/ (b / 2)) with (2 * / b) by (field; lra). lra. }
  assert (AI : Rabs (a / b) <= A * I). { unfold Rdiv. rewrite Rabs_mult, (Rabs_pos_eq (/ b)) by lra. apply Rmult_le_compat; lra. }
  assert (D : Rabs (dR x / dR y - a / b) <= 2 * I * (e + A * I * f)).
  { replace (dR x / dR y - a / b) with (/ dR y * ((dR x - a) - a / b * (dR y - b))) by (field; lra). rewrite Rabs_mult, (Rabs_pos_eq (/ dR y)) by lra.
    apply Rmult_le_compat; [lra|apply Rabs_pos|lra|]. eapply Rle_trans; [apply Rabs_triang|]. rewrite Rabs_Ropp, Rabs_mult. apply Rplus_le_compat; [exact H1|].
    apply Rmult_le_compat; [apply Rabs_pos|apply Rabs_pos|exact AI|]. apply Rabs_le. lra. }
  destruct (div_near x y k F1 NY K) as [F E].
  { replace (dR x / dR y) with ((dR x / dR y - a / b) + a / b) by ring. eapply Rle_lt_trans; [apply Rabs_triang|]. lra. }
  split; [exact F|]. replace (dR (ddiv x y) - a / b) with ((dR (ddiv x y) - dR x / dR y) + (dR x / dR y - a / b)) by ring. eapply Rle_trans; [apply Rabs_triang|]. lra.
Qed.

(** integer parts *)
Lemma ab_round x v e : ab x v e -> exists z, dround x = Some z /\ Rabs (IZR z - v) <= / 2 + e.
Proof.
  intros [F H]. assert (F' := F). apply (dint_fin zra) in F'. destruct F' as (z & E). change (dint zra) with dround in E. exists z. split; [exact E|].
  pose proof (dround_close _ _ E) as C. replace (IZR z - v) with ((IZR z - dR x) + (dR x - v)) by ring. eapply Rle_trans; [apply Rabs_triang|]. lra.
Qed.
Lemma ab_rint x v e : ab x v e -> exists z, drint x = Some z /\ Rabs (IZR z - v) <= / 2 + e.
Proof.
  intros [F H]. destruct (drint_close x F) as (z & E & C). exists z. split; [exact E|]. replace (IZR z - v) with ((IZR z - dR x) + (dR x - v)) by ring. eapply Rle_trans; [apply Rabs_triang|]. lra.
Qed.
Lemma ab_rint_eq x v e n : ab x v e -> Rabs (v - IZR n) + e < / 2 -> drint x = Some n.
Proof. intros [F H] L. apply (drint_near x n (Rabs (v - IZR n) + e) F); [|exact L]. replace (dR x - IZR n) with ((v - IZR n) + (dR x - v)) by ring. eapply Rle_trans; [apply Rabs_triang|]. lra. Qed.
Lemma ab_trunc x v e : ab x v e -> 0 <= v -> e < 1 -> exists z, dtrunc x = Some z /\ (0 <= z)%Z /\ IZR z - e <= v < IZR z + 1 + e.
Proof.
  intros [F H] P L. apply Rabs_le_inv in H. exists (Ztrunc (dR x)). split; [apply dtrunc_spec; exact F|].
  destruct (Rle_dec 0 (dR x)) as [Q|Q].
  - rewrite Ztrunc_floor by exact Q. split; [apply Zfloor_lub; exact Q|]. pose proof (Zfloor_lb (dR x)). pose proof (Zfloor_ub (dR x)). lra.
  - rewrite Ztrunc_ceil by lra. rewrite (Zceil_imp 0); [split; [lia|]; lra|]. cbn. lra.
Qed.
Lemma dceil_spec x v e : ab x v e -> exists z, (match dfloor (dopp x) with Some z => Some (dofZ (- z)) | None => None end) = Some (dofZ z) /\ IZR z - 1 - e <= v <= IZR z + e.
Proof.
  intros [F H]. destruct (dopp_spec x F) as [FO VO]. rewrite dfloor_spec by exact FO. exists (- Zfloor (dR (dopp x)))%Z. split; [reflexivity|]. rewrite VO, opp_IZR.
  pose proof (Zfloor_lb (- dR x)). pose proof (Zfloor_ub (- dR x)). apply Rabs_le_inv in H. lra.
Qed.
