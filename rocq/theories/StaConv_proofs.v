(** Lemmas for C66, C67: the doubles of the station messages. *)
From Coq Require Import Reals Lra String Ascii.
From Flocq Require Import Core IEEE754.Binary IEEE754.Bits.
From Verif Require Import Base Bitstring Bits_model Bits_proofs Bitstream_model Bitstream_proofs Double_model Double_proofs Esf_model Esf_proofs NmeaFields_proofs Near_proofs NovImu_proofs MsmVal_proofs
  RtcmFraming_model RtcmFraming_spec RtcmFraming_proofs RtcmFrameOut_model RtcmFrameOut_proofs RtcmStation_model RtcmStation_spec RtcmStation_proofs RtcmMessage_proofs ObsBuffer_model Time_model StaConv_model StaConv_spec.
Import ListNotations.
Open Scope Z_scope.
Open Scope list_scope.

(** ** coordinates *)
Lemma bp38 : bpow radix2 38 = 274877906944%R. Proof. reflexivity. Qed.
Lemma bp_16 : bpow radix2 (38 - 54) = (/ 65536)%R. Proof. reflexivity. Qed.
Lemma bp_29 : bpow radix2 (25 - 54) = (/ 536870912)%R. Proof. reflexivity. Qed.
Lemma bp25 : bpow radix2 25 = 33554432%R. Proof. reflexivity. Qed.
Lemma d10000 : dfin (dofZ 10000) = true /\ dR (dofZ 10000) = 10000%R. Proof. apply (dofZ_exact 10000). lia. Qed.
Lemma round_some x : dfin x = true -> exists n, dround x = Some n /\ (Rabs (IZR n - dR x) <= / 2)%R.
Proof. intros F. destruct (proj2 (dint_fin zra x) F) as [n E]. exists n. split; [exact E|apply dround_close; exact E]. Qed.
Lemma q_arp_ok x : coord_ok x -> exists n, q_arp x = Ok n /\ sbits 38 n /\ tenths_mm n x.
Proof.
  intros [F B]. unfold metres in B. fold (dR x) in B. fold (dfin x) in F. destruct d10000 as [F1 V1].
  destruct (mul_near x (dofZ 10000) 38 F F1 ltac:(lia)) as [F2 V2].
  { rewrite V1, bp38. apply Rabs_def1; apply Rabs_le_inv in B; lra. }
  rewrite V1, bp_16 in V2. destruct (round_some _ F2) as (n & E & C).
  apply Rabs_le_inv in B. apply Rabs_le_inv in V2. apply Rabs_le_inv in C.
  assert (N : -137438953472 < n < 137438953472) by (split; apply lt_IZR; lra).
  exists n. split; [|split].
  - unfold q_arp, to_int. rewrite E. destruct (Z.leb_spec (- 2 ^ 63) n); [|lia]. destruct (Z.leb_spec n (2 ^ 63 - 1)); [reflexivity|lia].
  - unfold sbits. change (2 ^ (38 - 1)) with 137438953472. lia.
  - unfold tenths_mm, metres. change (B2R 53 1024 x) with (dR x). apply Rabs_le. lra.
Qed.
Lemma arp_m_ok n : sbits 38 n -> is_tenths_mm (arp_m n) n.
Proof.
  unfold sbits. change (2 ^ (38 - 1)) with 137438953472. intros B. destruct d10000 as [F1 V1]. destruct (dofZ_exact n ltac:(lia)) as [F2 V2].
  assert (BR : (-137438953472 <= IZR n <= 137438953472)%R) by (split; apply IZR_le; lia).
  destruct (div_near (dofZ n) (dofZ 10000) 25 F2 ltac:(rewrite V1; lra) ltac:(lia)) as [F V].
  { rewrite V1, V2, bp25. apply Rabs_def1; lra. }
  rewrite V1, V2, bp_29 in V. split; [exact F|]. unfold metres. change (B2R 53 1024 (arp_m n)) with (dR (arp_m n)). unfold arp_m. eapply Rle_trans; [exact V|]. lra.
Qed.
Lemma arp_back n : sbits 38 n -> coord_ok (arp_m n) \/ Z.abs n >= 137438953470.
Proof.
  intros S. destruct (arp_m_ok n S) as [F V]. destruct (Z_lt_le_dec (Z.abs n) 137438953470); [left|right; lia].
  split; [exact F|]. assert (-137438953469 <= IZR n <= 137438953469)%R by (split; apply IZR_le; lia). apply Rabs_le_inv in V. apply Rabs_le. lra.
Qed.
Lemma arp_round n : sbits 38 n -> q_arp (arp_m n) = Ok n.
Proof.
  unfold sbits. change (2 ^ (38 - 1)) with 137438953472. intros B.
  assert (V : val (arp_m n) (IZR n / 10000) (2 * u53)).
  { unfold arp_m. apply (val_div0 _ _ _ _ 0); [apply val_Z; lia|apply (val_Z 10000); lia|lra| |lra|lra].
    apply range_mid. replace (IZR n / 10000)%R with (IZR n * / 10000)%R by reflexivity. apply prod_range; [lia|]. bpn. split; lra. }
  assert (W : val (dmul (arp_m n) (dofZ 10000)) (IZR n) (5 * u53)).
  { apply (val_eq _ (IZR n / 10000 * 10000)); [|field]. apply (val_mul _ _ _ _ (2 * u53) 0); [exact V|apply (val_Z 10000); lia| |unfold u53; lra|unfold u53; lra].
    replace (IZR n / 10000 * 10000)%R with (IZR n) by field. apply int_mid. lia. }
  unfold q_arp. rewrite (val_round _ n _ W).
  - unfold to_int. destruct (Z.leb_spec (- 2 ^ 63) n); [|lia]. destruct (Z.leb_spec n (2 ^ 63 - 1)); [reflexivity|lia].
  - assert (IZR (Z.abs n) <= 137438953472)%R by (apply IZR_le; lia). assert (0 <= IZR (Z.abs n))%R by (apply IZR_le; lia). unfold u53. lra.
Qed.

(** ** the antenna height *)
Lemma max_height : dfin MAX_HEIGHT = true /\ dR MAX_HEIGHT = height_max.
Proof.
  unfold MAX_HEIGHT. destruct (dofZ_exact 65535 ltac:(lia)) as [F1 V1]. destruct d10000 as [F2 V2].
  destruct (ddiv_spec (dofZ 65535) (dofZ 10000) F1 ltac:(rewrite V2; lra)) as [F V].
  { rewrite V1, V2. rewrite Rabs_pos_eq by lra. apply Rle_trans with (bpow radix2 3); [bpn; lra|apply bpow_le; lia]. }
  split; [exact F|]. rewrite V, V1, V2. reflexivity.
Qed.
Lemma height_max_near : (Rabs (height_max - 65535 / 10000) <= / 1000000000000)%R.
Proof. unfold height_max. eapply Rle_trans; [apply (rnd_err (65535 / 10000) 3); [lia|rewrite Rabs_pos_eq by lra; bpn; lra]|]. bpn. lra. Qed.
Lemma set_height_spec h st : is_finite 53 1024 h = true ->
  set_ant_height h st = if height_ok h then (true, mkost (o_sender st) true h (o_ant st) (o_rcv st)) else (false, st).
Proof.
  intros F. fold (dfin h) in F. destruct max_height as [F1 V1]. destruct (dofZ_exact 0 ltac:(lia)) as [F0 V0].
  unfold set_ant_height, dgtb. rewrite (dltb_spec h (dofZ 0)), (dltb_spec MAX_HEIGHT h) by assumption. rewrite V0, V1. unfold height_ok, metres.
  change (B2R 53 1024 h) with (dR h). destruct (Rle_dec 0 (dR h)) as [A|A].
  - rewrite Rlt_bool_false by exact A. cbn [orb]. destruct (Rle_dec (dR h) height_max) as [B|B]; [rewrite Rlt_bool_false by exact B|rewrite Rlt_bool_true by lra]; reflexivity.
  - rewrite Rlt_bool_true by lra. reflexivity.
Qed.
Lemma q_height_ok h : dfin h = true -> (0 <= dR h <= height_max)%R -> exists n, q_height h = Ok n /\ 0 <= n <= 65535 /\ tenths_mm n h.
Proof.
  intros F B. destruct max_height as [F1 V1]. destruct (dofZ_exact 0 ltac:(lia)) as [F0 V0]. destruct d10000 as [F2 V2].
  pose proof height_max_near as HM. apply Rabs_le_inv in HM.
  unfold q_height, dgtb. rewrite (dltb_spec h (dofZ 0)), (dltb_spec MAX_HEIGHT h) by assumption. rewrite V0, V1.
  rewrite (Rlt_bool_false (dR h) 0) by lra. rewrite Rlt_bool_false by lra.
  destruct (mul_near h (dofZ 10000) 17 F F2 ltac:(lia)) as [F3 V3]. { rewrite V2. bpn. apply Rabs_def1; lra. }
  rewrite V2 in V3. change (bpow radix2 (17 - 54)) with (/ 137438953472)%R in V3. destruct (round_some _ F3) as (n & E & C). apply Rabs_le_inv in V3. apply Rabs_le_inv in C.
  assert (N : -1 < n < 65536) by (split; apply lt_IZR; lra). exists n. rewrite E. unfold to_int.
  destruct (Z.leb_spec 0 n); [|lia]. destruct (Z.leb_spec n 65535); [|lia]. split; [reflexivity|]. split; [lia|].
  unfold tenths_mm, metres. change (B2R 53 1024 h) with (dR h). apply Rabs_le. lra.
Qed.

(** ** biases *)
Lemma bias_mid b : s16 b -> mid (IZR b / 50).
Proof. intros S. apply range_mid. replace (IZR b / 50)%R with (IZR b * / 50)%R by reflexivity. apply prod_range; [unfold s16 in S; lia|]. bpn. split; lra. Qed.
Lemma b_small b : s16 b -> (IZR (Z.abs b) <= 32768)%R /\ (0 <= IZR (Z.abs b))%R.
Proof. unfold s16. intros S. split; apply IZR_le; lia. Qed.
Lemma bias_out mask bit b : s16 b -> q_bias mask bit (bias_m b) = Ok (announced mask bit b).
Proof.
  intros S. unfold q_bias, announced. destruct (Z.testbit mask bit); [|reflexivity].
  assert (V : val (bias_m b) (IZR b / 50) (2 * u53)).
  { unfold bias_m, GLO_BIAS_RESOLUTION. apply (val_div0 _ _ _ _ 0); [apply val_Z; unfold s16 in S; lia|apply (val_Z 50); lia|lra|apply bias_mid; exact S|lra|lra]. }
  assert (W : val (dmul (bias_m b) (dofZ 50)) (IZR b) (5 * u53)).
  { apply (val_eq _ (IZR b / 50 * 50)); [|field]. apply (val_mul _ _ _ _ (2 * u53) 0); [exact V|apply (val_Z 50); lia| |unfold u53; lra|unfold u53; lra].
    replace (IZR b / 50 * 50)%R with (IZR b) by field. apply int_mid. unfold s16 in S. lia. }
  rewrite (val_round _ b _ W); [|pose proof (b_small b S); unfold u53; lra].
  unfold to_int, s16 in *. destruct (Z.leb_spec (-32768) b); [|lia]. destruct (Z.leb_spec b 32767); [reflexivity|lia].
Qed.
Lemma val_drint x n E : val x (IZR n) E -> (0 <= E)%R -> (IZR (Z.abs n) * E < / 2)%R -> drint x = Some n.
Proof.
  intros [F (e & Be & V)] E0 H. apply (drint_near x n (IZR (Z.abs n) * E)); [exact F| |exact H]. rewrite V. replace (IZR n * (1 + e) - IZR n)%R with (IZR n * e)%R by ring.
  rewrite Rabs_mult, <- abs_IZR. apply Rmult_le_compat_l; [apply IZR_le; lia|exact Be].
Qed.
Lemma v002 : val (ddiv (dofZ 2) (dofZ 100)) (2 / 100) (8 * u53). Proof. cval. Qed.
Lemma bias_in mask bit b : s16 b -> (Z.testbit mask bit = false -> b = 0) -> s16_bias (bias_decoded mask bit b) = Ok b.
Proof.
  intros S Z0. unfold s16_bias, bias_decoded, GLO_BIAS_RESOLUTION. destruct (Z.testbit mask bit); [clear Z0|rewrite (Z0 eq_refl); vm_compute; reflexivity].
  assert (V : val (dmul (dofZ b) (ddiv (dofZ 2) (dofZ 100))) (IZR b * (2 / 100)) (11 * u53)).
  { apply (val_mul _ _ _ _ 0 (8 * u53)); [apply val_Z; unfold s16 in S; lia|exact v002| |unfold u53; lra|unfold u53; lra]. apply range_mid, prod_range; [unfold s16 in S; lia|]. bpn. split; lra. }
  assert (W : val (dmul (dmul (dofZ b) (ddiv (dofZ 2) (dofZ 100))) (dofZ 50)) (IZR b) (14 * u53)).
  { apply (val_eq _ (IZR b * (2 / 100) * 50)); [|field]. apply (val_mul _ _ _ _ (11 * u53) 0); [exact V|apply (val_Z 50); lia| |unfold u53; lra|unfold u53; lra].
    replace (IZR b * (2 / 100) * 50)%R with (IZR b) by field. apply int_mid. unfold s16 in S. lia. }
  rewrite (val_drint _ b _ W); [|unfold u53; lra|pose proof (b_small b S); unfold u53; lra].
  unfold to_int, s16 in *. destruct (Z.leb_spec (-32768) b); [|lia]. destruct (Z.leb_spec b 32767); [reflexivity|lia].
Qed.
