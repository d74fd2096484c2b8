(** C35 (RAWX messages are split losslessly), C54 (carrier phase / Doppler packing). *)
From Coq Require Import Reals Lra.
From Flocq Require Import Core IEEE754.Binary IEEE754.Bits.
From Verif Require Import Base UbxVar_model Signals_model Double_model Double_proofs UbxObs_model UbxObs_proofs.
Open Scope Z_scope.

(** ** C35 *)
(** [is_epoch t obs l]: the messages [l] carry [obs] in order under time [t]: the i-th of the n messages is numbered i of n in its sequence
    byte (n in the high nibble), carries 14 observations unless it is the last, and the last one is empty only if there are none at all. *)
Definition is_epoch {T O} (t : T) (obs : list O) (l : list (obs_msg T O)) : Prop :=
  concat (map om_obs l) = obs /\ 1 <= len l <= 15 /\
  (forall i m, nth_error l i = Some m ->
     om_time m = t /\ om_n_obs m = 16 * len l + Z.of_nat i /\ len (om_obs m) <= 14 /\
     (Z.of_nat i < len l - 1 -> len (om_obs m) = 14) /\ (om_obs m = [] -> obs = [])).
Theorem C35_split_lossless {T O} (t : T) (obs : list O) : len obs <= 210 -> is_epoch t obs (split_obs t obs).
Proof.
  intros H. pose proof (len_nonneg obs) as H0. unfold split_obs. cbv zeta.
  set (total := if 0 <? len obs then (1 + (len obs - 1) / 14) mod 256 else 1).
  assert (HT : 1 <= total <= 15 /\ len obs <= total * 14 /\ (total - 1) * 14 < Z.max 1 (len obs)).
  { unfold total. destruct (Z.ltb_spec 0 (len obs)); [|lia]. rewrite Z.mod_small by lia. lia. }
  assert (HL : len (split_loop t obs total 0 (Z.to_nat total)) = total).
  { assert (G : forall n k, length (split_loop t obs total k n) = n) by (induction n as [|n IH]; intros k; cbn [split_loop length]; [reflexivity|rewrite IH; reflexivity]).
    unfold len. rewrite G. lia. }
  split; [|split].
  - rewrite split_loop_concat by lia. reflexivity.
  - rewrite HL. lia.
  - intros i m Hm. rewrite HL. rewrite split_loop_nth in Hm. destruct (Nat.ltb_spec i (Z.to_nat total)) as [L|]; [|discriminate].
    assert (Em : m = mk_obs_msg t ((total * 16 + (0 + Z.of_nat i)) mod 256) (take 14 (drop ((0 + Z.of_nat i) * 14) obs))) by congruence.
    subst m. cbn [om_time om_n_obs om_obs]. rewrite Z.mod_small by lia.
    assert (LO : len (take 14 (drop ((0 + Z.of_nat i) * 14) obs)) = Z.min 14 (Z.max 0 (len obs - Z.of_nat i * 14))) by (rewrite len_take, len_drop; lia).
    repeat split; try lia.
    intros E. rewrite E in LO. change (len (@nil O)) with 0 in LO. apply len_zero_nil. lia.
Qed.
(** the i-th observation is the conversion of the i-th measurement; nothing is dropped, added or reordered *)
Theorem C35_rawx_converted elt m l : len (rx_meas m) <= 210 -> handle_rxm_rawx elt m = Some l ->
  exists t os, fill_time m = Some t /\ Forall2 (fun x o => fill_obs elt x = Some o) (rx_meas m) os /\ is_epoch t os l.
Proof.
  intros H E. unfold handle_rxm_rawx in E. destruct (fill_time m) as [t|]; [|discriminate]. destruct (fill_all elt (rx_meas m)) as [os|] eqn:F; [|discriminate].
  exists t, os. split; [reflexivity|]. pose proof (fill_all_spec _ _ _ F) as P. split; [exact P|].
  assert (l = split_obs t os) by congruence. subst l. apply C35_split_lossless.
  assert (len os = len (rx_meas m)) by (clear -P; induction P; [reflexivity|rewrite !len_cons; lia]). lia.
Qed.
(** the conversion of one measurement, field by field *)
Lemma flags_eq t : 0 <= t -> Z.lor 8 (Z.land t 7) = 8 + t mod 8.
Proof.
  intros H. change 7 with (Z.ones 3). rewrite Z.land_ones by lia. change 8 with (Z.shiftl 1 3) at 1.
  rewrite lor_shiftl_add by (try lia; apply Z.mod_pos_bound; lia). lia.
Qed.
Theorem C35_measurement elt x o : fill_obs elt x = Some o ->
  to_u32 (dmul (dofZ 50) (dofbits (rm_pseudorange x))) = Some (o_P o) /\
  (forall i f, pack_carrier_phase (dofbits (rm_carrier_phase x)) = Packed i f <-> o_L o = Some (i, f)) /\
  (forall i f, pack_doppler (dofflt (fofbits (rm_doppler x))) = Packed i f <-> o_D o = Some (i, f)) /\
  o_sat o = rm_sat_id x /\ o_code o = convert_ubx_gnssid_sigid (rm_gnss_id x) (rm_sig_id x) /\
  (0 <= rm_cno x < 256 -> o_cn0 o = if rm_cno x <=? 63 then 4 * rm_cno x else 255) /\
  (0 <= rm_track_state x -> o_flags o = 8 + rm_track_state x mod 8).
Proof.
  intros E. unfold fill_obs in E. destruct (to_u32 (dmul (dofZ 50) (dofbits (rm_pseudorange x)))) as [P|]; [|discriminate].
  set (L := pack_carrier_phase (dofbits (rm_carrier_phase x))) in *. set (D := pack_doppler (dofflt (fofbits (rm_doppler x)))) in *.
  assert (Eo : L <> PackUb /\ D <> PackUb /\ o = mk_ubx_obs P (match L with Packed i f => Some (i, f) | _ => None end)
    (match D with Packed i f => Some (i, f) | _ => None end) (if 0x3F <? rm_cno x then 0xFF else 4 * rm_cno x)
    (elt (ddiv (dofZ (rm_lock_time x)) (dofZ 1000))) (Z.lor 8 (Z.land (rm_track_state x) 7)) (rm_sat_id x)
    (convert_ubx_gnssid_sigid (rm_gnss_id x) (rm_sig_id x))).
  { destruct L; destruct D; try discriminate E; (split; [discriminate|split; [discriminate|congruence]]). }
  clear E. destruct Eo as (NL & ND & ->). cbn [o_P o_L o_D o_sat o_code o_cn0 o_flags].
  split; [reflexivity|]. split; [intros i f; destruct L; split; congruence|]. split; [intros i f; destruct D; split; congruence|].
  split; [reflexivity|]. split; [reflexivity|]. split.
  - intros R. destruct (Z.ltb_spec 63 (rm_cno x)); destruct (Z.leb_spec (rm_cno x) 63); lia.
  - apply flags_eq.
Qed.
(** The signal table: each UBX (gnssId, sigId) pair of the protocol specification maps to the signal it denotes; all others are CODE_INVALID
    (and are still forwarded, with that code). *)
Theorem C35_signal_table g s :
  convert_ubx_gnssid_sigid g s <> CODE_INVALID <->
  In (g, s, convert_ubx_gnssid_sigid g s)
    [(0,0,GPS_L1CA); (0,3,GPS_L2CL); (0,4,GPS_L2CM); (1,0,SBAS_L1CA); (2,0,GAL_E1C); (2,1,GAL_E1B); (2,5,GAL_E7I); (2,6,GAL_E7Q);
     (3,0,BDS2_B1); (3,1,BDS2_B1); (3,2,BDS2_B2); (3,3,BDS2_B2); (5,0,QZS_L1CA); (5,4,QZS_L2CM); (5,5,QZS_L2CL); (6,0,GLO_L1OF); (6,2,GLO_L2OF)].
Proof.
  unfold convert_ubx_gnssid_sigid.
  repeat match goal with |- context [if ?b then _ else _] =>
    let E := fresh in destruct b eqn:E;
    [apply andb_prop in E; destruct E as [E1 E2]; apply Z.eqb_eq in E1; apply Z.eqb_eq in E2; subst g s; split; [intros _; cbn; tauto | intros _; discriminate] |] end.
  split; [congruence|]. intros I. exfalso. cbn in I.
  repeat match type of I with _ \/ _ => destruct I as [I|I]; [discriminate I|] end. exact I.
Qed.
(** Pseudorange: 2 cm units, truncated (plus the rounding error of one multiplication), for every non-negative finite double below 2^32/50 - 1 m *)
Theorem C35_pseudorange x : dfin x = true -> (0 <= dR x <= 85899344)%R ->
  exists P, to_u32 (dmul (dofZ 50) x) = Some P /\ (IZR P - bpow radix2 (-22) <= 50 * dR x < IZR P + 1 + bpow radix2 (-22))%R.
Proof.
  intros Fx R. destruct (dofZ_exact 50 ltac:(lia)) as [F50 R50].
  destruct (dmul_spec (dofZ 50) x F50 Fx) as [F1 R1].
  { rewrite R50, Rabs_pos_eq by lra. apply Rle_trans with (bpow radix2 32); [change (bpow radix2 32) with 4294967296%R; lra | apply bpow_le; lia]. }
  rewrite R50 in R1.
  assert (E : (Rabs (dR (dmul (dofZ 50) x) - 50 * dR x) <= bpow radix2 (-22))%R).
  { rewrite R1. apply (rnd_err _ 32); [lia|]. rewrite Rabs_pos_eq by lra. change (bpow radix2 32) with 4294967296%R. lra. }
  assert (B : (0 <= dR (dmul (dofZ 50) x) <= 4294967200)%R).
  { rewrite R1. split; [apply (rnd_ge_z _ 0); [lia|lra] | apply (rnd_le_z _ 4294967200); [lia|lra]]. }
  destruct (trunc_nonneg (dR (dmul (dofZ 50) x)) ltac:(lra)) as [T1 T2].
  exists (Ztrunc (dR (dmul (dofZ 50) x))). split.
  - unfold to_u32. rewrite dtrunc_spec by exact F1.
    assert (Ztrunc (dR (dmul (dofZ 50) x)) <= 4294967200) by (apply le_IZR; lra).
    replace (0 <=? Ztrunc (dR (dmul (dofZ 50) x))) with true by lia. replace (Ztrunc (dR (dmul (dofZ 50) x)) <? 2 ^ 32) with true by lia. reflexivity.
  - apply Rabs_le_inv in E. lra.
Qed.
(** Epoch time: the milliseconds and nanosecond residual add up to the receiver time of week within 1.1 ns and the residual is in
    (-500001, 500001) ns, for every time of week within a week. *)
Theorem C35_epoch_time m : dfin (dofbits (rx_rcv_tow m)) = true -> (0 <= dR (dofbits (rx_rcv_tow m)) <= 604800)%R ->
  exists t, fill_time m = Some t /\ -500000 < t_ns t <= 500000 /\ 0 <= t_tow t <= 604800001 /\
    (Rabs (IZR (t_tow t) * 1000000 + IZR (t_ns t) - 1000000000 * dR (dofbits (rx_rcv_tow m))) <= 1.1)%R /\
    t_wn t = (if rx_rcv_wn m =? 0 then 65535 else rx_rcv_wn m).
Proof.
  set (x := dofbits (rx_rcv_tow m)). intros Fx R. unfold fill_time. fold x. cbv zeta.
  destruct (dofZ_exact 1000 ltac:(lia)) as [F0 R0].
  destruct (dmul_spec (dofZ 1000) x F0 Fx) as [F1 R1].
  { rewrite R0, Rabs_pos_eq by lra. apply Rle_trans with (bpow radix2 30); [change (bpow radix2 30) with 1073741824%R; lra | apply bpow_le; lia]. }
  rewrite R0 in R1. set (ms := dmul (dofZ 1000) x) in *.
  assert (E1 : (Rabs (dR ms - 1000 * dR x) <= bpow radix2 (-24))%R).
  { rewrite R1. apply (rnd_err _ 30); [lia|]. rewrite Rabs_pos_eq by lra. change (bpow radix2 30) with 1073741824%R. lra. }
  assert (B1 : (0 <= dR ms <= 604800000)%R).
  { rewrite R1. split; [apply (rnd_ge_z _ 0); [lia|lra] | apply (rnd_le_z _ 604800000); [lia|lra]]. }
  destruct (trunc_nonneg (dR ms) ltac:(lra)) as [T1 T2]. rewrite dtrunc_spec by exact F1. set (tw := Ztrunc (dR ms)) in *.
  assert (T3 : tw <= 604800000) by (apply le_IZR; lra).
  destruct (dofZ_exact tw ltac:(lia)) as [F2 R2].
  destruct (dsub_spec ms (dofZ tw) F1 F2) as [F3 R3].
  { rewrite R2, Rabs_pos_eq by lra. apply Rle_trans with (bpow radix2 0); [rewrite bp0; lra | apply bpow_le; lia]. }
  rewrite R2 in R3.
  assert (E3 : (Rabs (dR (dsub ms (dofZ tw)) - (dR ms - IZR tw)) <= bpow radix2 (-54))%R).
  { rewrite R3. apply (rnd_err _ 0); [lia|]. rewrite bp0, Rabs_pos_eq; lra. }
  pose proof (rnd01 (dR ms - IZR tw) ltac:(lra)) as B3. rewrite <- R3 in B3.
  destruct (dofZ_exact 1000000 ltac:(lia)) as [F4 R4].
  destruct (dmul_spec (dofZ 1000000) _ F4 F3) as [F5 R5].
  { rewrite R4, Rabs_pos_eq by lra. apply Rle_trans with (bpow radix2 30); [change (bpow radix2 30) with 1073741824%R; lra | apply bpow_le; lia]. }
  rewrite R4 in R5. set (ns := dmul (dofZ 1000000) (dsub ms (dofZ tw))) in *.
  assert (E5 : (Rabs (dR ns - 1000000 * dR (dsub ms (dofZ tw))) <= bpow radix2 (-34))%R).
  { rewrite R5. apply (rnd_err _ 20); [lia|]. rewrite Rabs_pos_eq by lra. change (bpow radix2 20) with 1048576%R. lra. }
  assert (B5 : (0 <= dR ns <= 1000000)%R).
  { rewrite R5. split; [apply (rnd_ge_z _ 0); [lia|lra] | apply (rnd_le_z _ 1000000); [lia|lra]]. }
  destruct (trunc_nonneg (dR ns) ltac:(lra)) as [N1 N2]. unfold to_s32. rewrite dtrunc_spec by exact F5. set (n := Ztrunc (dR ns)) in *.
  assert (N3 : n <= 1000000) by (apply le_IZR; lra).
  replace ((- 2 ^ 31 <=? n) && (n <? 2 ^ 31)) with true by lia. replace ((0 <=? tw) && (tw <? 2 ^ 32)) with true by lia.
  eexists. split; [reflexivity|].
  apply Rabs_le_inv in E1. apply Rabs_le_inv in E3. apply Rabs_le_inv in E5.
  change (bpow radix2 (-24)) with (/ 16777216)%R in E1. change (bpow radix2 (-54)) with (/ 18014398509481984)%R in E3.
  change (bpow radix2 (-34)) with (/ 17179869184)%R in E5.
  destruct (Z.ltb_spec 500000 n); cbn [t_tow t_ns t_wn].
  - rewrite Z.mod_small by lia. split; [lia|]. split; [lia|]. split; [|reflexivity].
    rewrite plus_IZR, minus_IZR. apply Rabs_le. lra.
  - split; [lia|]. split; [lia|]. split; [|reflexivity]. apply Rabs_le. lra.
Qed.
(** Not lossless beyond 210 measurements (the receiver's count is a byte, up to 255): the number of messages no longer fits the
    high nibble and the sequence byte wraps to "0 messages in total". *)
Theorem C35_more_than_210_refuted {T O} (t : T) (o : O) : exists l,
  split_obs t (repeat o 211) = l /\ len l = 16 /\ map om_n_obs l = [0;1;2;3;4;5;6;7;8;9;10;11;12;13;14;15].
Proof. eexists. split; [reflexivity|]. split; reflexivity. Qed.
(** and the reported time of week can be one millisecond count past the week's end instead of rolling over *)
Theorem C35_tow_not_rolled_over_refuted : exists m t, dfin (dofbits (rx_rcv_tow m)) = true /\ dltb (dofbits (rx_rcv_tow m)) (dofZ 604800) = true /\
  fill_time m = Some t /\ t_tow t = 604800000.
Proof.
  exists (mk_rawx 2 0x15 16 0x412274ffffffffff 2000 18 0 1 1 [0; 0] []). eexists.
  split; [vm_compute; reflexivity|]. split; [vm_compute; reflexivity|]. split; vm_compute; reflexivity.
Qed.
(** A pseudorange above 2^32/50 m (or a negative or NaN one) is undefined behaviour. *)
Theorem C35_pseudorange_range_refuted : to_u32 (dmul (dofZ 50) (dofZ 85899346)) = None /\ to_u32 (dmul (dofZ 50) (dofZ (-1))) = None.
Proof. split; vm_compute; reflexivity. Qed.

(** ** C54 *)
(** value of a packed pair *)
Definition packed_val (i f : Z) : R := (IZR i + IZR f / 256)%R.
Definition pack_eps : R := (/ 512 + bpow radix2 (-52))%R.
Theorem C54_carrier_phase x : dfin x = true ->
  ((- 2147483648 <= dR x < 2147483648 - pack_eps)%R ->
     exists i f, pack_carrier_phase x = Packed i f /\ -2147483648 <= i <= 2147483647 /\ 0 <= f <= 255 /\
       (Rabs (packed_val i f - dR x) <= pack_eps)%R) /\
  ((dR x < -2147483648 \/ 2147483648 <= dR x)%R -> pack_carrier_phase x = PackRefused).
Proof.
  intros Fx. assert (PE : (0 < pack_eps)%R) by (unfold pack_eps; pose proof (bpow_gt_0 radix2 (-52)); lra).
  pose proof (floor_bounds (dR x)) as FB. split.
  - intros [A B]. pose proof (dfloor_spec x Fx) as E. set (li := Zfloor (dR x)) in *.
    assert (L1 : -2147483648 <= li) by (unfold li; rewrite <- (Zfloor_IZR (-2147483648)); apply Zfloor_le; exact A).
    assert (L2 : li <= 2147483647) by (assert (li < 2147483648) by (apply lt_IZR; lra); lia).
    destruct (frac_spec x li Fx E ltac:(lia)) as (f & Ef & Rf & Cl). unfold pack_carrier_phase. rewrite E.
    replace ((li <? - 2 ^ 31) || (2 ^ 31 - 1 <? li)) with false by lia. rewrite Ef. fold pack_eps in Cl.
    destruct (Z.ltb_spec 255 f) as [C|C].
    + assert (f = 256) by lia. subst f. destruct (Z.eqb_spec li (2 ^ 31 - 1)) as [M|M].
      * exfalso. rewrite M in Cl. apply Rabs_le_inv in Cl. change (2 ^ 31 - 1) with 2147483647 in Cl. lra.
      * exists (li + 1), 0. split; [reflexivity|]. split; [lia|]. split; [lia|]. unfold packed_val. rewrite plus_IZR.
        replace (IZR li + 1 + 0 / 256 - dR x)%R with (IZR li + 256 / 256 - dR x)%R by field. exact Cl.
    + exists li, f. split; [reflexivity|]. split; [lia|]. split; [lia|]. exact Cl.
  - intros H. unfold pack_carrier_phase. rewrite dfloor_spec by exact Fx. set (li := Zfloor (dR x)) in *.
    replace ((li <? - 2 ^ 31) || (2 ^ 31 - 1 <? li)) with true; [reflexivity|]. symmetry. apply orb_true_iff. destruct H as [H|H].
    + left. assert (li < -2147483648) by (apply lt_IZR; lra). lia.
    + right. assert (2147483648 <= li) by (unfold li; rewrite <- (Zfloor_IZR 2147483648); apply Zfloor_le; exact H). lia.
Qed.
Theorem C54_doppler y : is_finite 24 128 y = true ->
  ((- 32768 <= B2R 24 128 y < 32768 - pack_eps)%R ->
     exists i f, pack_doppler (dofflt y) = Packed i f /\ -32768 <= i <= 32767 /\ 0 <= f <= 255 /\
       (Rabs (packed_val i f - B2R 24 128 y) <= pack_eps)%R) /\
  ((B2R 24 128 y < -32768 \/ 32768 <= B2R 24 128 y)%R -> pack_doppler (dofflt y) = PackRefused).
Proof.
  intros Fy. destruct (dofflt_exact y Fy) as [Fx Rx]. rewrite <- Rx. set (x := dofflt y) in *.
  assert (PE : (0 < pack_eps)%R) by (unfold pack_eps; pose proof (bpow_gt_0 radix2 (-52)); lra).
  pose proof (floor_bounds (dR x)) as FB. split.
  - intros [A B]. pose proof (dfloor_spec x Fx) as E. set (li := Zfloor (dR x)) in *.
    assert (L1 : -32768 <= li) by (unfold li; rewrite <- (Zfloor_IZR (-32768)); apply Zfloor_le; exact A).
    assert (L2 : li <= 32767) by (assert (li < 32768) by (apply lt_IZR; lra); lia).
    destruct (frac_spec x li Fx E ltac:(lia)) as (f & Ef & Rf & Cl). unfold pack_doppler. rewrite E.
    replace ((li <? - 2 ^ 15) || (2 ^ 15 - 1 <? li)) with false by lia. rewrite Ef. fold pack_eps in Cl.
    destruct (Z.ltb_spec 255 f) as [C|C].
    + assert (f = 256) by lia. subst f. destruct (Z.eqb_spec (li + 1) (2 ^ 15)) as [M|M].
      * exfalso. assert (M' : li = 32767) by lia. rewrite M' in Cl. apply Rabs_le_inv in Cl. lra.
      * exists (li + 1), 0. split; [reflexivity|]. split; [lia|]. split; [lia|]. unfold packed_val. rewrite plus_IZR.
        replace (IZR li + 1 + 0 / 256 - dR x)%R with (IZR li + 256 / 256 - dR x)%R by field. exact Cl.
    + exists li, f. split; [reflexivity|]. split; [lia|]. split; [lia|]. exact Cl.
  - intros H. unfold pack_doppler. rewrite dfloor_spec by exact Fx. set (li := Zfloor (dR x)) in *.
    replace ((li <? - 2 ^ 15) || (2 ^ 15 - 1 <? li)) with true; [reflexivity|]. symmetry. apply orb_true_iff. destruct H as [H|H].
    + left. assert (li < -32768) by (apply lt_IZR; lra). lia.
    + right. assert (32768 <= li) by (unfold li; rewrite <- (Zfloor_IZR 32768); apply Zfloor_le; exact H). lia.
Qed.
(** hypotheses met: 118000000.75 cycles, -1234.5 Hz *)
Example C54_nonvacuous : pack_carrier_phase (ddiv (dofZ 472000003) (dofZ 4)) = Packed 118000000 192 /\
  pack_doppler (ddiv (dofZ (-2469)) (dofZ 2)) = Packed (-1235) 128 /\ dfin (ddiv (dofZ 472000003) (dofZ 4)) = true.
Proof. split; [|split]; vm_compute; reflexivity. Qed.
(** The last half unit below the limit is not handled: the Doppler 32767.998 Hz is packed as -32768 Hz, the carrier phase
    2147483647.9999995 overflows int32 (undefined), and so does a NaN phase. *)
Theorem C54_doppler_wraps_refuted : exists bits, dltb (dofZ 32767) (dofflt (fofbits bits)) = true /\
  dltb (dofflt (fofbits bits)) (dofZ 32768) = true /\ pack_doppler (dofflt (fofbits bits)) = Packed (-32768) 0.
Proof. exists 0x46ffffff. repeat split; vm_compute; reflexivity. Qed.
Theorem C54_phase_overflow_refuted : exists bits, dltb (dofbits bits) (dofZ 2147483648) = true /\ pack_carrier_phase (dofbits bits) = PackUb.
Proof. exists 0x41dfffffffffffff. split; vm_compute; reflexivity. Qed.
Theorem C54_nan_refuted : exists bits, 0 <= bits < 2 ^ 64 /\ pack_carrier_phase (dofbits bits) = PackUb.
Proof. exists 0x7ff8000000000000. split; [lia | vm_compute; reflexivity]. Qed.
Print Assumptions C35_split_lossless.
Print Assumptions C35_rawx_converted.
Print Assumptions C35_measurement.
Print Assumptions C35_signal_table.
Print Assumptions C35_pseudorange.
Print Assumptions C35_epoch_time.
Print Assumptions C35_more_than_210_refuted.
Print Assumptions C35_tow_not_rolled_over_refuted.
Print Assumptions C35_pseudorange_range_refuted.
Print Assumptions C54_carrier_phase.
Print Assumptions C54_doppler.
Print Assumptions C54_doppler_wraps_refuted.
Print Assumptions C54_phase_overflow_refuted.
Print Assumptions C54_nan_refuted.
