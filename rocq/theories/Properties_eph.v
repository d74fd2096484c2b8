(** C15, C14 (ephemeris messages). *)
From Verif Require Import Base Bits_model Bitstream_model Bitstream_proofs RtcmStation_model RtcmStation_spec RtcmEph_model RtcmEph_spec RtcmEph_proofs.

(** GLONASS 1020, BeiDou 1042: every representable ephemeris comes back unchanged. *)
Theorem C15_1020_round_trip : forall m, wf_glo m -> round_trips (encode_glo m) (run_dec decode_glo) 45 m.
Proof. exact rt_glo. Qed.
Print Assumptions C15_1020_round_trip.
Theorem C15_1042_round_trip : forall m, wf_bds m -> 5 < e_sat m -> round_trips (encode_bds m) (run_dec decode_bds) 64 m.
Proof. exact rt_bds. Qed.
Print Assumptions C15_1042_round_trip.
(** the five BeiDou geostationary satellites are refused by the receiver *)
Theorem C15_1042_geo_refused : forall m, ubits 6 (e_sat m) -> e_sat m <= 5 -> forall buff, bytes buff -> 64 <= len buff ->
  let '(b, n) := encode_bds m buff in run_dec decode_bds (take n b) = Invalid.
Proof. exact bds_geo. Qed.
Print Assumptions C15_1042_geo_refused.
(** GPS 1019: with equal clock and ephemeris reference times (the normal case) *)
Theorem C15_1019_round_trip_partial : forall m, wf_gps m -> e_toe m = e_toc m -> round_trips (encode_gps m) (run_dec decode_gps) 61 m.
Proof.
  intros m H E. pose proof (rt_gps m H) as P. replace (swap_toe_toc m) with m in P; [exact P|].
  destruct m; cbn in *. unfold swap_toe_toc. cbn. subst. reflexivity.
Qed.
Print Assumptions C15_1019_round_trip_partial.
(** in general everything else comes back, and the two times are exchanged *)
Theorem C15_1019_toe_toc_exchanged : forall m, wf_gps m -> round_trips (encode_gps m) (run_dec decode_gps) 61
  (mkkeph (e_sat m) (e_wn m) (e_toc m) (e_ura m) (e_fit m) (e_health m) (e_tgd0 m) (e_tgd1 m) (e_crc m) (e_crs m) (e_cuc m) (e_cus m) (e_cic m)
    (e_cis m) (e_dn m) (e_m0 m) (e_ecc m) (e_sqrta m) (e_omega0 m) (e_omegadot m) (e_w m) (e_inc m) (e_inc_dot m) (e_af0 m) (e_af1 m) (e_af2 m)
    (e_toe m) (e_iodc m) (e_iode m) (e_codeL2 m) (e_L2_data_bit m)).
Proof. exact rt_gps. Qed.
Print Assumptions C15_1019_toe_toc_exchanged.
Definition sample_gps (toe toc : Z) : keph :=
  mkkeph 31 1001 toe 3 1 21 (-12) 0 (-5000) 4001 (-300) 301 (-17) 18 (-9999) (-1234567890) 98765432 2702040023 (-777777777) (-23456) 1357913579
    987654321 (-321) (-98765) (-1234) 5 toc 512 77 1 true.
Lemma sample_gps_wf toe toc : ubits 16 toe -> ubits 16 toc -> wf_gps (sample_gps toe toc).
Proof. intros. unfold wf_gps, sample_gps. cbn. unfold ubits, sbits in *. cbn. repeat split; lia. Qed.
Theorem C15_1019_round_trip_refuted : exists m, wf_gps m /\ ~ round_trips (encode_gps m) (run_dec decode_gps) 61 m.
Proof.
  exists (sample_gps 7200 7201). split; [apply sample_gps_wf; unfold ubits; lia|].
  intros H. pose proof (rt_gps _ (sample_gps_wf 7200 7201 ltac:(unfold ubits; lia) ltac:(unfold ubits; lia))) as P.
  specialize (H (repeat 0 61)). specialize (P (repeat 0 61)).
  assert (B : bytes (repeat 0 61)) by (repeat constructor; unfold byte; lia). specialize (H B (Z.le_refl _)). specialize (P B (Z.le_refl _)).
  destruct (encode_gps _ _) as [b n]. destruct H as (_ & _ & _ & H). destruct P as (_ & _ & _ & P). rewrite H in P. discriminate.
Qed.
Print Assumptions C15_1019_round_trip_refuted.

(** Galileo 1046 (I/NAV), 1045 (F/NAV): exact while the top bit of the health field (the E5b / E5a health MSB) is clear *)
Theorem C15_1046_round_trip_partial : forall m, wf_inav m -> e_health m < 32 -> round_trips (encode_inav m) (run_dec decode_inav) 63 m.
Proof.
  intros m H E. pose proof (rt_inav m H) as P. unfold as_s8 in P. destruct (Z.ltb_spec (e_health m) (2 ^ (6 - 1))) as [X|X].
  - destruct m. exact P.
  - exfalso. change (2 ^ (6 - 1)) with 32 in X. lia.
Qed.
Print Assumptions C15_1046_round_trip_partial.
Theorem C15_1045_round_trip_partial : forall m, wf_fnav m -> e_health m < 4 -> round_trips (encode_fnav m) (run_dec decode_fnav) 62 m.
Proof.
  intros m H E. pose proof (rt_fnav m H) as P. unfold as_s8 in P. destruct (Z.ltb_spec (e_health m) (2 ^ (3 - 1))) as [X|X].
  - destruct m. exact P.
  - exfalso. change (2 ^ (3 - 1)) with 4 in X. lia.
Qed.
Print Assumptions C15_1045_round_trip_partial.
Definition sample_gal (h b2 : Z) : keph :=
  mkkeph 36 1023 5400 107 0 h (-12) b2 (-5000) 4001 (-300) 301 (-17) 18 (-9999) (-1234567890) 98765432 2702040023 (-777777777) (-23456) 1357913579
    987654321 (-321) (-98765) (-1234) 5 5460 0 77 0 false.
Lemma sample_gal_wf h b2 : wf_gal (sample_gal h b2).
Proof. unfold wf_gal, sample_gal. cbn. unfold ubits, sbits in *. cbn. repeat split; lia. Qed.
(** an unhealthy satellite (health bit 5 / bit 2 set) comes back with 192 / 248 added to its health field *)
Theorem C15_1046_health_refuted : exists m, wf_inav m /\ e_health m = 32 /\
  exists m', round_trips (encode_inav m) (run_dec decode_inav) 63 m' /\ e_health m' = 224.
Proof.
  exists (sample_gal 32 5). split; [split; [apply sample_gal_wf|split; unfold ubits, sbits; cbn; lia]|]. split; [reflexivity|].
  eexists. split; [apply rt_inav; split; [apply sample_gal_wf|split; unfold ubits, sbits; cbn; lia]|]. reflexivity.
Qed.
Print Assumptions C15_1046_health_refuted.
Theorem C15_1045_health_refuted : exists m, wf_fnav m /\ e_health m = 4 /\
  exists m', round_trips (encode_fnav m) (run_dec decode_fnav) 62 m' /\ e_health m' = 252.
Proof.
  exists (sample_gal 4 0). split; [split; [apply sample_gal_wf|split; unfold ubits, sbits; cbn; lia]|]. split; [reflexivity|].
  eexists. split; [apply rt_fnav; split; [apply sample_gal_wf|split; unfold ubits, sbits; cbn; lia]|]. reflexivity.
Qed.
Print Assumptions C15_1045_health_refuted.

(** C14 for the ephemeris messages *)
Definition truncated_rejected {M} (d : dec M) : Prop := forall p m, run_dec d p = Ok m ->
  exists n, 0 <= n <= 8 * len p /\ forall k, 0 <= k <= len p -> run_dec d (take k p) = if 8 * k <? n then Invalid else Ok m.
Theorem C14_truncated_1019_rejected : truncated_rejected decode_gps. Proof. exact (truncation _ cut_gps). Qed.
Theorem C14_truncated_1020_rejected : truncated_rejected decode_glo. Proof. exact (truncation _ cut_glo). Qed.
Theorem C14_truncated_1042_rejected : truncated_rejected decode_bds. Proof. exact (truncation _ cut_bds). Qed.
Theorem C14_truncated_1044_rejected : truncated_rejected decode_qzss. Proof. exact (truncation _ cut_qzss). Qed.
Theorem C14_truncated_1045_rejected : truncated_rejected decode_fnav. Proof. exact (truncation _ cut_fnav). Qed.
Theorem C14_truncated_1046_rejected : truncated_rejected decode_inav. Proof. exact (truncation _ cut_inav). Qed.
Print Assumptions C14_truncated_1020_rejected.

(** non-vacuity *)
Example C15_gps_applies : wf_gps (sample_gps 7200 7200). Proof. apply sample_gps_wf; unfold ubits; lia. Qed.
Example C15_inav_applies : wf_inav (sample_gal 9 (-3)).
Proof. split; [apply sample_gal_wf|split; unfold ubits, sbits; cbn; lia]. Qed.
Example C15_fnav_applies : wf_fnav (sample_gal 3 0).
Proof. split; [apply sample_gal_wf|split; unfold ubits, sbits; cbn; lia]. Qed.
Example C15_bds_applies : wf_bds (mkkeph 6 8191 131071 3 0 1 (-12) (-511) (-5000) 4001 (-300) 131000 (-17) 18 (-9999) (-1234567890) 98765432 2702040023
   (-777777777) (-23456) 1357913579 987654321 (-321) (-98765) (-1234) 5 5460 31 7 0 false).
Proof. unfold wf_bds. cbn. unfold ubits, sbits in *. cbn. repeat split; lia. Qed.
Example C15_glo_applies : wf_glo (mkgeph 24 15 3 1 (-1023) (-2097151) 15 95 (-67108863) 67108863 1 (-8388607) 8388607 0 (-15) 15 0 13).
Proof. unfold wf_glo. cbn. unfold ubits, smag in *. cbn. repeat split; lia. Qed.
