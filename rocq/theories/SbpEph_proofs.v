From Coq Require Import Reals Lra.
From Flocq Require Import Core IEEE754.Binary IEEE754.Bits.
From Verif Require Import Base Double_model Double_proofs UbxObs_model UbxObs_proofs Esf_model Esf_proofs Ixcom_model Ixcom_float_proofs Tables_model Tables_spec Tables_proofs
  RtcmStation_spec RtcmEph_model RtcmEph_spec Time_model SbpEph_model SbpEph_spec Near_proofs Pi_proofs.
Open Scope R_scope.

Definition quantum (q : dbl) : Prop := dfin q = true /\ bpow radix2 (-67) <= dR q <= bpow radix2 0.
Lemma quantum_nz q : quantum q -> dR q <> 0.
Proof. intros (_ & L & _). pose proof (bpow_gt_0 radix2 (-67)). lra. Qed.
Lemma quantum_wide q : quantum q -> bpow radix2 (-80) <= dR q <= bpow radix2 20.
Proof. intros (_ & L & U). split; [eapply Rle_trans; [|exact L]; apply bpow_le; lia|eapply Rle_trans; [exact U|]; apply bpow_le; lia]. Qed.
Lemma consts_quantum c k : consts_ok c -> (5 <= k <= 66)%Z -> quantum (c k).
Proof. intros C K. destruct (C k K) as (F & L & U). split; [exact F|]. split; [eapply Rle_trans; [|exact L]; apply bpow_le; lia|eapply Rle_trans; [exact U|]; apply bpow_le; lia]. Qed.

Lemma qd_val q n : quantum q -> (Z.abs n <= 2 ^ 34)%Z -> val (dmul (dofZ n) q) (IZR n * dR q) (2 * u53).
Proof.
  intros Q N. eapply val_mul; [apply val_Z; lia|apply val_self; apply Q|apply range_mid, prod_range; [lia|apply quantum_wide; exact Q]| |]; unfold u53; lra.
Qed.
Lemma double_back q n : quantum q -> (Z.abs n <= 2 ^ 34)%Z -> dround (ddiv (dmul (dofZ n) q) q) = Some n.
Proof.
  intros Q N. eapply val_round with (E := 4 * u53).
  - eapply val_eq; [eapply val_div0; [apply qd_val; assumption|apply val_self; apply Q|apply quantum_nz; exact Q| | |]|].
    + replace (IZR n * dR q / dR q) with (IZR n) by (field; apply quantum_nz; exact Q). apply int_mid. lia.
    + unfold u53; lra.
    + apply Req_le. ring.
    + field. apply quantum_nz; exact Q.
  - apply IZR_le in N. change (IZR (2 ^ 34)) with 17179869184 in N. unfold u53. lra.
Qed.
Lemma float_back q n : quantum q -> (Z.abs n <= 2 ^ 21)%Z -> dround (ddiv (dofflt (f32 (dmul (dofZ n) q))) q) = Some n.
Proof.
  intros Q N. eapply val_round with (E := 2 * u24).
  - eapply val_eq; [eapply val_div0; [eapply val_f32_sharp with (G := (3 / 2) * u24); [apply qd_val; [assumption|lia]|apply prod_range; [lia|apply quantum_wide; exact Q]| |]|apply val_self; apply Q|apply quantum_nz; exact Q| | |]|].
    + unfold u53; lra.
    + unfold u53, u24; lra.
    + replace (IZR n * dR q / dR q) with (IZR n) by (field; apply quantum_nz; exact Q). apply int_mid. lia.
    + unfold u24; lra.
    + unfold u53, u24; lra.
    + field. apply quantum_nz; exact Q.
  - apply IZR_le in N. change (IZR (2 ^ 21)) with 2097152 in N. unfold u24. lra.
Qed.
Lemma pi_val : dfin d_pi = true /\ 3 <= dR d_pi <= 4.
Proof.
  destruct (dme_spec d_pi 7074237752028440 (-51) ltac:(vm_compute; reflexivity)) as [F V]. split; [exact F|]. rewrite V.
  change (bpow radix2 (-51)) with (/ 2251799813685248). lra.
Qed.
Lemma qpi_wide q : quantum q -> bpow radix2 (-80) <= dR q * dR d_pi <= bpow radix2 20.
Proof.
  intros (_ & L & U). destruct pi_val as [_ [P1 P2]]. pose proof (bpow_gt_0 radix2 (-67)). split.
  - apply Rle_trans with (bpow radix2 (-67) * 1); [rewrite Rmult_1_r; apply bpow_le; lia|]. apply Rmult_le_compat; lra.
  - apply Rle_trans with (bpow radix2 0 * bpow radix2 2); [|rewrite <- bpow_plus; apply bpow_le; lia]. change (bpow radix2 2) with 4. apply Rmult_le_compat; lra.
Qed.
Lemma qp_val q n : quantum q -> (Z.abs n <= 2 ^ 34)%Z -> val (dmul (dmul (dofZ n) q) d_pi) (IZR n * dR q * dR d_pi) (4 * u53).
Proof.
  intros Q N. eapply val_mul; [apply qd_val; assumption|apply val_self; apply pi_val| | |].
  - rewrite Rmult_assoc. apply range_mid, prod_range; [lia|apply qpi_wide; exact Q].
  - unfold u53; lra.
  - unfold u53; lra.
Qed.
Lemma angle_back q n : quantum q -> (Z.abs n <= 2 ^ 34)%Z -> dround (ddiv (dmul (dmul (dofZ n) q) d_pi) (dmul q d_pi)) = Some n.
Proof.
  intros Q N. assert (NZ : dR q * dR d_pi <> 0) by (pose proof (qpi_wide q Q); pose proof (bpow_gt_0 radix2 (-80)); lra).
  assert (VP : val (dmul q d_pi) (dR q * dR d_pi) (2 * u53)).
  { eapply val_mul; [apply val_self; apply Q|apply val_self; apply pi_val| | |]; [|unfold u53; lra|unfold u53; lra].
    replace (dR q * dR d_pi) with (IZR 1 * (dR q * dR d_pi)) by ring. apply range_mid, prod_range; [lia|apply qpi_wide; exact Q]. }
  eapply val_round with (E := 16 * u53).
  - eapply val_eq; [eapply val_div; [apply qp_val; eassumption|exact VP|exact NZ| | | |]|].
    + replace (IZR n * dR q * dR d_pi / (dR q * dR d_pi)) with (IZR n) by (field; split; [pose proof pi_val; lra|apply quantum_nz; exact Q]). apply int_mid. lia.
    + unfold u53; lra.
    + unfold u53; lra.
    + unfold u53; lra.
    + field; split; [pose proof pi_val; lra|apply quantum_nz; exact Q].
  - apply IZR_le in N. change (IZR (2 ^ 34)) with 17179869184 in N. unfold u53. lra.
Qed.
(** kilometres to metres and back *)
Lemma q1000_wide q : quantum q -> bpow radix2 (-80) <= dR q * 1000 <= bpow radix2 20.
Proof.
  intros (_ & L & U). pose proof (bpow_gt_0 radix2 (-67)). split.
  - apply Rle_trans with (bpow radix2 (-67) * 1); [rewrite Rmult_1_r; apply bpow_le; lia|]. apply Rmult_le_compat; lra.
  - change (bpow radix2 0) with 1 in U. change (bpow radix2 20) with 1048576. lra.
Qed.
Lemma km_val q n : quantum q -> (Z.abs n <= 2 ^ 34)%Z -> val (dmul (dmul (dofZ n) q) (dofZ 1000)) (IZR n * dR q * 1000) (4 * u53).
Proof.
  intros Q N. eapply val_mul; [apply qd_val; assumption|apply (val_Z 1000); lia| | |].
  - rewrite Rmult_assoc. apply range_mid, prod_range; [lia|apply q1000_wide; exact Q].
  - unfold u53; lra.
  - unfold u53; lra.
Qed.
Lemma thousand_mid n : (Z.abs n <= 2 ^ 34)%Z -> mid (IZR n * 1000).
Proof. intros N. rewrite <- mult_IZR. apply int_mid. lia. Qed.
Lemma km_back q n : quantum q -> (Z.abs n <= 2 ^ 34)%Z -> dround (ddiv (ddiv (dmul (dmul (dofZ n) q) (dofZ 1000)) q) (dofZ 1000)) = Some n.
Proof.
  intros Q N. pose proof (quantum_nz q Q) as NZ. eapply val_round with (E := 8 * u53).
  - eapply val_eq; [eapply val_div0 with (a := IZR n * 1000) (b := 1000); [eapply val_eq; [eapply val_div0 with (G := 6 * u53); [apply km_val; eassumption|apply val_self; apply Q|exact NZ| | |]|]|apply (val_Z 1000); lia| | | |]|].
    + replace (IZR n * dR q * 1000 / dR q) with (IZR n * 1000) by (field; exact NZ). apply thousand_mid, N.
    + unfold u53; lra.
    + unfold u53; lra.
    + field; exact NZ.
    + lra.
    + replace (IZR n * 1000 / 1000) with (IZR n) by field. apply int_mid. lia.
    + unfold u53; lra.
    + unfold u53; lra.
    + field.
  - apply IZR_le in N. change (IZR (2 ^ 34)) with 17179869184 in N. unfold u53. lra.
Qed.
Lemma kmf_back q n : quantum q -> (Z.abs n <= 2 ^ 21)%Z -> dround (ddiv (ddiv (dofflt (f32 (dmul (dmul (dofZ n) q) (dofZ 1000)))) q) (dofZ 1000)) = Some n.
Proof.
  intros Q N. pose proof (quantum_nz q Q) as NZ. eapply val_round with (E := 2 * u24).
  - eapply val_eq; [eapply val_div0 with (a := IZR n * 1000) (b := 1000) (E := (7 / 4) * u24); [eapply val_eq; [eapply val_div0 with (E := (3 / 2) * u24); [eapply val_f32_sharp; [apply km_val; [eassumption|lia]| | |]|apply val_self; apply Q|exact NZ| | |]|]|apply (val_Z 1000); lia| | | |]|].
    + rewrite Rmult_assoc. apply prod_range; [lia|apply q1000_wide; exact Q].
    + unfold u53; lra.
    + unfold u53, u24; lra.
    + replace (IZR n * dR q * 1000 / dR q) with (IZR n * 1000) by (field; exact NZ). apply thousand_mid. lia.
    + unfold u24; lra.
    + unfold u53, u24; lra.
    + field; exact NZ.
    + lra.
    + replace (IZR n * 1000 / 1000) with (IZR n) by field. apply int_mid. lia.
    + unfold u24; lra.
    + unfold u53, u24; lra.
    + field.
  - apply IZR_le in N. change (IZR (2 ^ 21)) with 2097152 in N. unfold u24. lra.
Qed.
Lemma q1em10 : quantum d_1em10.
Proof.
  destruct (dme_spec d_1em10 7737125245533627 (-86) ltac:(vm_compute; reflexivity)) as [F V]. split; [exact F|]. rewrite V.
  change (bpow radix2 (-86)) with (/ 77371252455336267181195264). change (bpow radix2 (-67)) with (/ 147573952589676412928). change (bpow radix2 0) with 1. lra.
Qed.

(** ** records *)
Open Scope Z_scope.
Lemma conv_back lo hi x n : dround x = Some n -> lo <= n < hi -> conv lo hi x = Some n.
Proof. intros E H. unfold conv. rewrite E. destruct (Z.leb_spec lo n), (Z.ltb_spec n hi); try lia. reflexivity. Qed.
Section Back.
Variables (c : Z -> dbl) (C : consts_ok c).
Lemma f_back k n : 5 <= k <= 66 -> Z.abs n <= 2 ^ 21 -> r32 (uf c k (qf c k n)) = Some n.
Proof. intros K N. apply conv_back; [|lia]. apply float_back; [apply consts_quantum; assumption|exact N]. Qed.
Lemma f_back16 k n : 5 <= k <= 66 -> - 2 ^ 15 <= n < 2 ^ 15 -> r16 (uf c k (qf c k n)) = Some n.
Proof. intros K N. apply conv_back; [|lia]. apply float_back; [apply consts_quantum; assumption|lia]. Qed.
Lemma f_back8 k n : 5 <= k <= 66 -> - 2 ^ 7 <= n < 2 ^ 7 -> r8 (uf c k (qf c k n)) = Some n.
Proof. intros K N. apply conv_back; [|lia]. apply float_back; [apply consts_quantum; assumption|lia]. Qed.
Lemma fd_back k n : 5 <= k <= 66 -> Z.abs n <= 2 ^ 21 -> r32 (ud c k (dofflt (qf c k n))) = Some n.
Proof. intros K N. apply conv_back; [|lia]. apply float_back; [apply consts_quantum; assumption|exact N]. Qed.
Lemma d_back k n : 5 <= k <= 66 -> - 2 ^ 31 <= n < 2 ^ 31 -> r32 (ud c k (qd c k n)) = Some n.
Proof. intros K N. apply conv_back; [|lia]. apply double_back; [apply consts_quantum; assumption|lia]. Qed.
Lemma du_back k n : 5 <= k <= 66 -> 0 <= n < 2 ^ 32 -> ru32 (ud c k (qd c k n)) = Some n.
Proof. intros K N. apply conv_back; [|lia]. apply double_back; [apply consts_quantum; assumption|lia]. Qed.
Lemma p_back k n : 5 <= k <= 66 -> - 2 ^ 31 <= n < 2 ^ 31 -> r32 (up c k (qp c k n)) = Some n.
Proof. intros K N. apply conv_back; [|lia]. apply angle_back; [apply consts_quantum; assumption|lia]. Qed.
Lemma p_back16 k n : 5 <= k <= 66 -> - 2 ^ 15 <= n < 2 ^ 15 -> r16 (up c k (qp c k n)) = Some n.
Proof. intros K N. apply conv_back; [|lia]. apply angle_back; [apply consts_quantum; assumption|lia]. Qed.
Lemma k_back k n : 5 <= k <= 66 -> - 2 ^ 31 <= n < 2 ^ 31 -> r32 (ddiv (ud c k (dmul (qd c k n) (dofZ 1000))) (dofZ 1000)) = Some n.
Proof. intros K N. apply conv_back; [|lia]. apply km_back; [apply consts_quantum; assumption|lia]. Qed.
Lemma kf_back k n : 5 <= k <= 66 -> Z.abs n <= 2 ^ 21 -> r32 (ddiv (uf c k (f32 (dmul (qd c k n) (dofZ 1000)))) (dofZ 1000)) = Some n.
Proof. intros K N. apply conv_back; [|lia]. apply kmf_back; [apply consts_quantum; assumption|lia]. Qed.
Lemma t_back n : Z.abs n <= 2 ^ 21 -> r32 (ddiv (dofflt (f32 (dmul (dofZ n) d_1em10))) d_1em10) = Some n.
Proof. intros N. apply conv_back; [|lia]. apply float_back; [exact q1em10|exact N]. Qed.

Lemma harmonics_back kc kh s k crs crc cuc cus cic cis : 5 <= kc <= 66 -> 5 <= kh <= 66 ->
  s_crs s = qf c kc crs -> s_crc s = qf c kc crc -> s_cuc s = qf c kh cuc -> s_cus s = qf c kh cus -> s_cic s = qf c kh cic -> s_cis s = qf c kh cis ->
  sbits 18 crs -> sbits 18 crc -> sbits 18 cuc -> sbits 18 cus -> sbits 18 cic -> sbits 18 cis ->
  harmonics c kc kh s k = k crs crc cuc cus cic cis.
Proof.
  unfold sbits. intros Kc Kh E1 E2 E3 E4 E5 E6 B1 B2 B3 B4 B5 B6. change (2 ^ (18 - 1)) with 131072 in *. unfold harmonics. rewrite E1, E2, E3, E4, E5, E6.
  rewrite (f_back kc crs), (f_back kc crc), (f_back kh cuc), (f_back kh cus), (f_back kh cic), (f_back kh cis) by lia. reflexivity.
Qed.
Lemma orbit_back s k dn m0 ecc sqrta omega0 omegadot w inc inc_dot :
  s_dn s = qp c 43 dn -> s_m0 s = qp c 31 m0 -> s_ecc s = qd c 33 ecc -> s_sqrta s = qd c 19 sqrta -> s_omega0 s = qp c 31 omega0 ->
  s_omegadot s = qp c 43 omegadot -> s_w s = qp c 31 w -> s_inc s = qp c 31 inc -> s_inc_dot s = qp c 43 inc_dot ->
  sbits 16 dn -> sbits 32 m0 -> ubits 32 ecc -> ubits 32 sqrta -> sbits 32 omega0 -> sbits 24 omegadot -> sbits 32 w -> sbits 32 inc -> sbits 14 inc_dot ->
  orbit c s k = k dn m0 ecc sqrta omega0 omegadot w inc inc_dot.
Proof.
  unfold sbits, ubits. intros E1 E2 E3 E4 E5 E6 E7 E8 E9 B1 B2 B3 B4 B5 B6 B7 B8 B9. unfold orbit. rewrite E1, E2, E3, E4, E5, E6, E7, E8, E9.
  change (2 ^ (16 - 1)) with 32768 in *. change (2 ^ (32 - 1)) with 2147483648 in *. change (2 ^ (24 - 1)) with 8388608 in *. change (2 ^ (14 - 1)) with 8192 in *.
  rewrite (p_back16 43 dn), (p_back 31 m0), (du_back 33 ecc), (du_back 19 sqrta), (p_back 31 omega0), (p_back 43 omegadot), (p_back 31 w), (p_back 31 inc), (p_back16 43 inc_dot) by lia. reflexivity.
Qed.
End Back.
Lemma sbits_weaken n p v : 1 <= n <= p -> sbits n v -> sbits p v.
Proof. unfold sbits. intros H B. assert (2 ^ (n - 1) <= 2 ^ (p - 1)) by (apply Z.pow_le_mono_r; lia). lia. Qed.

(** ** values *)
Open Scope R_scope.
Lemma scaled_format n k : (Z.abs n < 2 ^ 53)%Z -> (0 <= k <= 1000)%Z -> generic_format radix2 (FLT_exp (-1074) 53) (scaled n k).
Proof.
  intros N K. unfold scaled. change (IZR n * bpow radix2 (- k)) with (F2R (Float radix2 n (- k))). apply generic_format_F2R. intros Z. unfold cexp, FLT_exp. rewrite mag_F2R by exact Z.
  assert (mag radix2 (IZR n) <= 53)%Z by (apply mag_le_Zpower; [exact Z|exact N]). lia.
Qed.
Lemma scaled_format32 n k : (Z.abs n < 2 ^ 24)%Z -> (0 <= k <= 100)%Z -> generic_format radix2 (FLT_exp (-149) 24) (scaled n k).
Proof.
  intros N K. unfold scaled. change (IZR n * bpow radix2 (- k)) with (F2R (Float radix2 n (- k))). apply generic_format_F2R. intros Z. unfold cexp, FLT_exp. rewrite mag_F2R by exact Z.
  assert (mag radix2 (IZR n) <= 24)%Z by (apply mag_le_Zpower; [exact Z|exact N]). lia.
Qed.
Lemma scaled_bound n k b : (Z.abs n <= 2 ^ b)%Z -> (0 <= b)%Z -> (0 <= k)%Z -> Rabs (scaled n k) <= bpow radix2 b.
Proof.
  intros N B K. unfold scaled. rewrite Rabs_mult, <- abs_IZR, (Rabs_pos_eq (bpow radix2 (- k))) by apply bpow_ge_0.
  replace (bpow radix2 b) with (bpow radix2 b * bpow radix2 0) by (change (bpow radix2 0) with 1; ring).
  apply Rmult_le_compat; [apply IZR_le; lia|apply bpow_ge_0| |apply bpow_le; lia]. rewrite <- pow_bpow by lia. apply IZR_le. exact N.
Qed.
Lemma wide b c : (b <= c)%Z -> forall x, Rabs x <= bpow radix2 b -> Rabs x <= bpow radix2 c.
Proof. intros L x H. eapply Rle_trans; [exact H|]. apply bpow_le. exact L. Qed.
Section Values.
Variables (c : Z -> dbl) (C : consts_exact c).
Lemma qd_exact k n : (5 <= k <= 66)%Z -> (Z.abs n < 2 ^ 53)%Z -> dexact (qd c k n) (scaled n k).
Proof.
  intros K N. destruct (C k K) as [F V]. destruct (dofZ_exact n ltac:(lia)) as [FN VN].
  assert (P : dR (dofZ n) * dR (c k) = scaled n k) by (rewrite VN, V; reflexivity).
  destruct (dmul_spec (dofZ n) (c k) FN F) as [FM VM]; [rewrite P; apply (wide 53 1000 ltac:(lia)), scaled_bound; lia|].
  split; [exact FM|]. change (B2R 53 1024 (qd c k n)) with (dR (dmul (dofZ n) (c k))). rewrite VM, P. apply rnd_id, scaled_format; lia.
Qed.
Lemma f32_exact x n k : dexact x (scaled n k) -> (0 <= k <= 100)%Z -> (Z.abs n < 2 ^ 24)%Z -> fexact (f32 x) (scaled n k).
Proof.
  intros [F V] K N. destruct (f32_spec x F) as [G W]; [change (dR x) with (B2R 53 1024 x); rewrite V; apply (wide 24 100 ltac:(lia)), scaled_bound; lia|].
  split; [exact G|]. change (B2R 24 128 (f32 x)) with (fR (f32 x)). rewrite W. change (dR x) with (B2R 53 1024 x). rewrite V. apply rnd32_id, scaled_format32; lia.
Qed.
Lemma qf_exact k n : (5 <= k <= 66)%Z -> (Z.abs n < 2 ^ 24)%Z -> fexact (qf c k n) (scaled n k).
Proof. intros K N. apply f32_exact; [apply qd_exact; lia|lia|lia]. Qed.
Lemma dofflt_dexact x v : fexact x v -> dexact (dofflt x) v.
Proof. intros [F V]. destruct (dofflt_exact x F) as [G W]. split; [exact G|]. rewrite <- V. exact W. Qed.
Lemma scaled_mul n k z : scaled n k * IZR z = scaled (n * z) k.
Proof. unfold scaled. rewrite mult_IZR. ring. Qed.
Lemma km_exact k n : (5 <= k <= 66)%Z -> (Z.abs n < 2 ^ 40)%Z -> dexact (dmul (qd c k n) (dofZ 1000)) (scaled (n * 1000) k).
Proof.
  intros K N. destruct (qd_exact k n K ltac:(lia)) as [F V]. destruct (dofZ_exact 1000 ltac:(lia)) as [F1 V1].
  assert (P : dR (qd c k n) * dR (dofZ 1000) = scaled (n * 1000) k) by (change (dR (qd c k n)) with (B2R 53 1024 (qd c k n)); rewrite V, V1; apply scaled_mul).
  destruct (dmul_spec _ _ F F1) as [FM VM]; [rewrite P; apply (wide 53 1000 ltac:(lia)), scaled_bound; lia|].
  split; [exact FM|]. change (B2R 53 1024 (dmul (qd c k n) (dofZ 1000))) with (dR (dmul (qd c k n) (dofZ 1000))). rewrite VM, P. apply rnd_id, scaled_format; lia.
Qed.
Lemma d_pi_near : exists e, Rabs e <= / 14000000000000000 /\ dR d_pi = PI * (1 + e).
Proof.
  destruct (dme_spec d_pi 7074237752028440 (-51) ltac:(vm_compute; reflexivity)) as [_ V]. change (bpow radix2 (-51)) with (/ 2251799813685248) in V. pose proof pi_close as H. rewrite Rabs_minus_sym in H.
  assert (P : PI >= 31415 / 10000) by (apply Rabs_le_inv in H; lra).
  exists ((dR d_pi - PI) / PI). split; [|field; lra]. unfold Rdiv at 1. rewrite Rabs_mult, Rabs_inv, (Rabs_pos_eq PI) by lra.
  replace (7074237752028440 / 2251799813685248) with (dR d_pi) in H by (rewrite V; field).
  apply Rle_trans with (/ 4503599627370496 * / (31415 / 10000)); [|lra]. apply Rmult_le_compat; [apply Rabs_pos|left; apply Rinv_0_lt_compat; lra|exact H|apply Rinv_le; lra].
Qed.
Lemma scaled_range n k : (5 <= k <= 66)%Z -> (Z.abs n <= 2 ^ 53)%Z -> scaled n k = 0 \/ bpow radix2 (-80) <= Rabs (scaled n k) <= bpow radix2 53.
Proof.
  intros K N. destruct (Z.eq_dec n 0) as [-> | Z]; [left; unfold scaled; ring|right]. split; [|apply scaled_bound; lia].
  unfold scaled. rewrite Rabs_mult, <- abs_IZR, (Rabs_pos_eq (bpow radix2 (- k))) by apply bpow_ge_0.
  replace (bpow radix2 (-80)) with (1 * bpow radix2 (-80)) by ring. apply Rmult_le_compat; [lra|apply bpow_ge_0|apply IZR_le; lia|apply bpow_le; lia].
Qed.
Lemma qp_radians k n : (5 <= k <= 66)%Z -> (Z.abs n < 2 ^ 53)%Z -> radians (qp c k n) (scaled n k).
Proof.
  intros K N. destruct (qd_exact k n K N) as [F V]. change (B2R 53 1024 (qd c k n)) with (dR (qd c k n)) in V. destruct pi_val as [FP [P1 P2]].
  destruct (scaled_range n k K ltac:(lia)) as [Z | [L U]].
  - assert (Q : dR (qd c k n) * dR d_pi = 0) by (rewrite V, Z; ring). destruct (dmul_spec _ _ F FP) as [FM VM]; [rewrite Q, Rabs_R0; apply bpow_ge_0|].
    split; [exact FM|]. change (B2R 53 1024 (qp c k n)) with (dR (dmul (qd c k n) d_pi)). rewrite VM, Q, Z. unfold rnd. rewrite round_0 by typeclasses eauto. rewrite Rmult_0_l, Rminus_0_r, Rabs_R0. lra.
  - assert (B : bpow radix2 (-80) <= Rabs (dR (qd c k n) * dR d_pi) <= bpow radix2 55).
    { rewrite V, Rabs_mult, (Rabs_pos_eq (dR d_pi)) by lra. pose proof (bpow_gt_0 radix2 (-80)). split.
      - apply Rle_trans with (bpow radix2 (-80) * 1); [lra|]. apply Rmult_le_compat; lra.
      - replace (bpow radix2 55) with (bpow radix2 53 * 4) by (change 4 with (bpow radix2 2); rewrite <- bpow_plus; reflexivity). apply Rmult_le_compat; [apply Rabs_pos|lra|exact U|exact P2]. }
    destruct (dmul_spec _ _ F FP) as [FM VM]; [apply (wide 55 1000 ltac:(lia)), B|].
    split; [exact FM|]. change (B2R 53 1024 (qp c k n)) with (dR (dmul (qd c k n) d_pi)). rewrite VM.
    destruct (rnd_rel (dR (qd c k n) * dR d_pi)) as (e & BE & ->); [eapply Rle_trans; [|apply B]; apply bpow_le; lia|].
    destruct d_pi_near as (f & BF & ->). rewrite V. rewrite u53_bpow in BE.
    replace (scaled n k * (PI * (1 + f)) * (1 + e) - scaled n k * PI) with ((e + f + e * f) * (scaled n k * PI)) by ring. rewrite Rabs_mult. apply Rmult_le_compat_r; [apply Rabs_pos|].
    apply Rabs_le_inv in BE. apply Rabs_le_inv in BF. unfold u53 in BE. apply Rabs_le. nra.
Qed.
End Values.
Lemma tgd_close n : (Z.abs n <= 2 ^ 20)%Z -> fclose (f32 (dmul (dofZ n) d_1em10)) (IZR n / 10000000000).
Proof.
  intros N. destruct q1em10 as [F B]. pose proof q1em10 as Q.
  destruct (dme_spec d_1em10 7737125245533627 (-86) ltac:(vm_compute; reflexivity)) as [_ V]. change (bpow radix2 (-86)) with (/ 77371252455336267181195264) in V.
  assert (VQ : val (dmul (dofZ n) d_1em10) (IZR n * dR d_1em10) (2 * u53)) by (apply qd_val; [exact Q|lia]).
  pose proof (val_f32_sharp _ _ _ ((5 / 4) * u24) VQ (prod_range n _ ltac:(lia) (quantum_wide _ Q)) ltac:(unfold u53; lra) ltac:(unfold u53, u24; lra)) as [G (e & BE & H)].
  assert (FF : ffin (f32 (dmul (dofZ n) d_1em10)) = true).
  { destruct VQ as [FQ (x & BX & VX)]. apply f32_spec; [exact FQ|]. rewrite VX. apply Rabs_le_inv in BX. rewrite Rabs_mult. unfold u53 in BX. rewrite (Rabs_pos_eq (1 + x)) by lra.
    destruct (prod_range n _ ltac:(lia) (quantum_wide _ Q)) as [-> | [_ U]]; [rewrite Rabs_R0, Rmult_0_l; apply bpow_ge_0|].
    replace (bpow radix2 100) with (bpow radix2 90 * bpow radix2 10) by (rewrite <- bpow_plus; reflexivity). apply Rmult_le_compat; [apply Rabs_pos|lra|exact U|change (bpow radix2 10) with 1024; lra]. }
  destruct (dofflt_exact _ FF) as [_ W]. split; [exact FF|]. rewrite <- W. change (B2R 53 1024 (dofflt (f32 (dmul (dofZ n) d_1em10)))) with (dR (dofflt (f32 (dmul (dofZ n) d_1em10)))). rewrite H.
  set (v := IZR n / 10000000000). assert (E : IZR n * dR d_1em10 = v * (1 + (dR d_1em10 * 10000000000 - 1))) by (unfold v; field). rewrite E.
  replace (v * (1 + (dR d_1em10 * 10000000000 - 1)) * (1 + e) - v) with (((dR d_1em10 * 10000000000 - 1) + e * (dR d_1em10 * 10000000000)) * v) by ring.
  rewrite Rabs_mult. apply Rmult_le_compat_r; [apply Rabs_pos|]. apply Rabs_le_inv in BE. unfold u24 in BE. rewrite V. apply Rabs_le. lra.
Qed.
Lemma orbit_values_of c kc kh m s : consts_exact c -> (5 <= kc <= 66)%Z -> (5 <= kh <= 66)%Z ->
  s_crs s = qf c kc (e_crs m) -> s_crc s = qf c kc (e_crc m) -> s_cuc s = qf c kh (e_cuc m) -> s_cus s = qf c kh (e_cus m) -> s_cic s = qf c kh (e_cic m) -> s_cis s = qf c kh (e_cis m) ->
  s_dn s = qp c 43 (e_dn m) -> s_m0 s = qp c 31 (e_m0 m) -> s_ecc s = qd c 33 (e_ecc m) -> s_sqrta s = qd c 19 (e_sqrta m) -> s_omega0 s = qp c 31 (e_omega0 m) ->
  s_omegadot s = qp c 43 (e_omegadot m) -> s_w s = qp c 31 (e_w m) -> s_inc s = qp c 31 (e_inc m) -> s_inc_dot s = qp c 43 (e_inc_dot m) ->
  sbits 18 (e_crs m) -> sbits 18 (e_crc m) -> sbits 18 (e_cuc m) -> sbits 18 (e_cus m) -> sbits 18 (e_cic m) -> sbits 18 (e_cis m) ->
  sbits 16 (e_dn m) -> sbits 32 (e_m0 m) -> ubits 32 (e_ecc m) -> ubits 32 (e_sqrta m) -> sbits 32 (e_omega0 m) -> sbits 24 (e_omegadot m) -> sbits 32 (e_w m) -> sbits 32 (e_inc m) -> sbits 14 (e_inc_dot m) ->
  orbit_values kc kh m s.
Proof.
  intros C Kc Kh E1 E2 E3 E4 E5 E6 F1 F2 F3 F4 F5 F6 F7 F8 F9 B1 B2 B3 B4 B5 B6 D1 D2 D3 D4 D5 D6 D7 D8 D9. unfold orbit_values. rewrite E1, E2, E3, E4, E5, E6, F1, F2, F3, F4, F5, F6, F7, F8, F9.
  unfold sbits, ubits in *. change (2 ^ (18 - 1))%Z with 131072%Z in *. change (2 ^ (16 - 1))%Z with 32768%Z in *. change (2 ^ (32 - 1))%Z with 2147483648%Z in *. change (2 ^ (24 - 1))%Z with 8388608%Z in *. change (2 ^ (14 - 1))%Z with 8192%Z in *.
  clear E1 E2 E3 E4 E5 E6 F1 F2 F3 F4 F5 F6 F7 F8 F9.
  repeat split; first [apply (qf_exact c C); lia | apply (qp_radians c C); lia | apply (qd_exact c C); lia].
Qed.
