(** Properties C57, C58: broadcast ephemerides between RTCM and SBP. *)
From Coq Require Import Reals Lra.
From Flocq Require Import Core IEEE754.Binary IEEE754.Bits.
From Verif Require Import Base Double_model Double_proofs UbxObs_model UbxObs_proofs Esf_model Esf_proofs Ixcom_model Ixcom_float_proofs Tables_model Tables_spec Tables_proofs
  RtcmStation_spec RtcmEph_model RtcmEph_spec Time_model Time_proofs SbpEph_model SbpEph_spec Near_proofs SbpEph_proofs Properties_tables Properties_time.
Open Scope Z_scope.
Lemma Some_inj' {A} (a b : A) : Some a = Some b -> a = b. Proof. congruence. Qed.

(** GPS 1019: every number of the message comes back, whatever the libswiftnav constants (near 2^-k), provided the week the converter
    resolved is the message's week modulo 1024.  Not preserved: the two L2 fields. *)
Theorem C57_gps_round_trip_partial : forall c adj mw eps log2f m s, consts_ok c -> eps_ok eps -> log2_ok log2f -> wf_gps m ->
  gps_eph_to_sbp c adj mw m = Some s -> s_toc_wn s mod 1024 = e_wn m -> sbp_to_gps_eph c eps log2f s = Some (with_l2_defaults m).
Proof.
  intros c adj mw eps l m s C E L W H K.
  destruct W as (B1 & B2 & B3 & B4 & B5 & B6 & B7 & B8 & B9 & B10 & B11 & B12 & B13 & B14 & B15 & B16 & B17 & B18 & B19 & B20 & B21 & B22 & B23 & B24 & B25 & B26 & B27 & B28 & B29 & B30).
  unfold gps_eph_to_sbp in H. destruct (mw _ _) as [w1|]; [|discriminate]. destruct (mw _ _) as [w2|]; [|discriminate]. apply Some_inj' in H. subst s. cbn [s_toc_wn] in K.
  unfold sbp_to_gps_eph. cbn [s_ura s_tgd0 s_af0 s_af1 s_af2 s_sat s_toc_wn s_toe s_fit s_health s_toc s_iodc s_iode].
  unfold ubits, sbits in B3, B8, B9, B10, B27, B29. change (2 ^ 4) with 16 in B3. change (2 ^ 1) with 2 in B29. change (2 ^ (8 - 1)) with 128 in *. change (2 ^ (16 - 1)) with 32768 in B9. change (2 ^ (22 - 1)) with 2097152 in B10.
  destruct (C26_gps_ura_exact eps l (e_ura m) E L ltac:(lia)) as [U _]. rewrite U. rewrite (f_back c C 31 (e_tgd0 m)) by lia.
  erewrite (harmonics_back c C 5 29); [|lia|lia|reflexivity|reflexivity|reflexivity|reflexivity|reflexivity|reflexivity|eapply sbits_weaken; [|eassumption]; lia..].
  erewrite (orbit_back c C); [|reflexivity|reflexivity|reflexivity|reflexivity|reflexivity|reflexivity|reflexivity|reflexivity|reflexivity|eassumption..].
  rewrite (fd_back c C 31 (e_af0 m)), (fd_back c C 43 (e_af1 m)), (f_back c C 55 (e_af2 m)) by lia.
  rewrite C26_gps_fit_flag_round_trip by lia. rewrite !Z.div_mul by lia. rewrite K. unfold with_l2_defaults. rewrite B30.
  replace (wrap16 (e_af2 m)) with (e_af2 m); [reflexivity|].
  unfold wrap16. destruct (Z.ltb_spec (e_af2 m) 0).
  - replace (e_af2 m mod 2 ^ 16) with (e_af2 m + 65536) by (apply Z.mod_unique with (-1); lia). destruct (Z.ltb_spec (e_af2 m + 65536) (2 ^ 15)); lia.
  - rewrite Z.mod_small by lia. destruct (Z.ltb_spec (e_af2 m) (2 ^ 15)); lia.
Qed.
Definition two_pow (k : Z) : dbl := dscale 1 (- k).
(** the constants 2^-k meet the hypotheses *)
Theorem two_pow_exact : consts_exact two_pow.
Proof.
  intros k K. unfold two_pow. destruct (dscale_spec 1 (- k)) as [F V].
  - rewrite Rmult_1_l, Rabs_pos_eq by apply bpow_ge_0. apply bpow_le. lia.
  - split; [exact F|]. rewrite V, Rmult_1_l. apply rnd_id. apply generic_format_bpow. unfold FLT_exp. lia.
Qed.
Lemma exact_ok c : consts_exact c -> consts_ok c.
Proof. intros H k K. destruct (H k K) as [F V]. split; [exact F|]. rewrite V. split; apply bpow_le; lia. Qed.
Definition eph_example : keph := mkkeph 7 227 1350 2 0 0 (-5) 0 9271 (-1234) (-777) 12000 15 (-16) 11111 (-2000000000) 4000000000 2702000000 1999999999 (-23456) (-1) 666666666 (-8191) (-2097152) 32767 (-128) 1350 54 54 2 true.
(** the hypotheses are met by a message with extreme values *)
Example C57_gps_example : let mw := fun w _ => Some 2275 in
  wf_gps eph_example /\ (exists s, gps_eph_to_sbp two_pow (fun w => w) mw eph_example = Some s /\ s_toc_wn s mod 1024 = e_wn eph_example) /\ with_l2_defaults eph_example <> eph_example.
Proof.
  cbv zeta. split; [unfold wf_gps, ubits, sbits; cbn; repeat split; lia|]. split; [|discriminate].
  eexists. split; [reflexivity|]. reflexivity.
Qed.
(** finding: the L2 code/data flags are replaced *)
Theorem C57_gps_l2_flags_refuted : forall c adj mw eps log2f m s, consts_ok c -> eps_ok eps -> log2_ok log2f -> wf_gps m ->
  gps_eph_to_sbp c adj mw m = Some s -> s_toc_wn s mod 1024 = e_wn m -> e_codeL2 m <> 1 -> sbp_to_gps_eph c eps log2f s <> Some m.
Proof.
  intros c adj mw eps l m s C E L W H K N Q. rewrite (C57_gps_round_trip_partial c adj mw eps l m s C E L W H K) in Q. apply Some_inj' in Q. apply N. rewrite <- Q. reflexivity.
Qed.

(** Galileo 1045/1046, for the accuracy indices in use (0..125) and "no prediction" (255) *)
Theorem C57_gal_round_trip_partial : forall c adj mw m src s, consts_ok c -> wf_gal m -> sbits 10 (e_tgd1 m) -> e_ura m <= 125 \/ e_ura m = 255 ->
  gal_eph_to_sbp c adj mw m src = Some s -> s_toe_wn s = e_wn m + 1024 -> sbp_to_gal_eph c s = Some m.
Proof.
  intros c adj mw m src s C W T U H K.
  destruct W as (B1 & B2 & B3 & B4 & B5 & B6 & B7 & B8 & B9 & B10 & B11 & B12 & B13 & B14 & B15 & B16 & B17 & B18 & B19 & B20 & B21 & B22 & B23 & B24 & B25 & B26 & B27 & B28 & B29).
  unfold gal_eph_to_sbp in H. destruct (mw _ _) as [w1|]; [|discriminate]. destruct (mw _ _) as [w2|]; [|discriminate]. apply Some_inj' in H. subst s. cbn [s_toe_wn] in K.
  unfold sbp_to_gal_eph. cbn [s_ura s_tgd0 s_tgd1 s_af0 s_af1 s_af2 s_sat s_toe_wn s_toe s_health s_toc s_iodc s_iode].
  unfold ubits, sbits in B2, B4, B7, B8, B9, B25, T. change (2 ^ 8) with 256 in B4. change (2 ^ 12) with 4096 in B2. change (2 ^ (6 - 1)) with 32 in *. change (2 ^ (21 - 1)) with 1048576 in *.
  change (2 ^ (31 - 1)) with 1073741824 in *. change (2 ^ (10 - 1)) with 512 in *.
  destruct (C26_sisa_exact (e_ura m) ltac:(lia)) as [S _]. rewrite S. rewrite (f_back c C 32 (e_tgd0 m)), (f_back c C 32 (e_tgd1 m)) by lia.
  erewrite (harmonics_back c C 5 29); [|lia|lia|reflexivity|reflexivity|reflexivity|reflexivity|reflexivity|reflexivity|eapply sbits_weaken; [|eassumption]; lia..].
  erewrite (orbit_back c C); [|reflexivity|reflexivity|reflexivity|reflexivity|reflexivity|reflexivity|reflexivity|reflexivity|reflexivity|eassumption..].
  rewrite (d_back c C 34 (e_af0 m)), (d_back c C 46 (e_af1 m)), (f_back16 c C 59 (e_af2 m)) by lia.
  rewrite !Z.div_mul by lia. rewrite K. replace (e_wn m + 1024 - 1024) with (e_wn m) by ring. rewrite (Z.mod_small (e_wn m)) by lia.
  replace (if e_ura m <=? 125 then e_ura m else 255) with (e_ura m) by (destruct (Z.leb_spec (e_ura m) 125); lia).
  destruct m as [x1 x2 x3 x4 x5 x6 x7 x8 x9 x10 x11 x12 x13 x14 x15 x16 x17 x18 x19 x20 x21 x22 x23 x24 x25 x26 x27 x28 x29 x30 x31]. cbn [e_fit e_iodc e_codeL2 e_L2_data_bit] in B26, B27, B28, B29. subst. reflexivity.
Qed.
(** BeiDou 1042, except reference times at the very start of a BeiDou week (or, meaninglessly, beyond its end), provided the week is not older than the build's
    reference week (for which gps_adjust_week_cycle would add rollovers) *)
Theorem C57_bds_round_trip_partial : forall c adj eps log2f m, consts_ok c -> eps_ok eps -> log2_ok log2f -> wf_bds m ->
  0 < e_toe m < 75600 -> 0 < e_toc m < 75600 -> adj (e_wn m + 1356) = e_wn m + 1356 -> adj (e_wn m + 1357) = e_wn m + 1357 ->
  sbp_to_bds_eph c eps log2f (bds_eph_to_sbp c adj m) = Some m.
Proof.
  intros c adj eps l m C E L W TE TC A0 A1.
  destruct W as (B1 & B2 & B3 & B4 & B5 & B6 & B7 & B8 & B9 & B10 & B11 & B12 & B13 & B14 & B15 & B16 & B17 & B18 & B19 & B20 & B21 & B22 & B23 & B24 & B25 & B26 & B27 & B28 & B29 & B30 & B31).
  assert (T : forall t, 0 < t < 75600 -> let '(w, s) := time_from_bds (e_wn m) t 8 in get_bds_wn_tow (adj w) s 8 = (e_wn m, t)).
  { unfold ubits in B2. change (2 ^ 13) with 8192 in B2. intros t Ht. unfold time_from_bds, get_bds_wn_tow. destruct (Z.ltb_spec (t * 8 + 14) 604800).
    - rewrite Z.div_small, Z.mod_small, Z.add_0_r, A0 by lia. destruct (Z.ltb_spec 14 (t * 8 + 14)); [|lia]. replace (e_wn m + 1356 - 1356) with (e_wn m) by ring.
      replace (t * 8 + 14 - 14) with (t * 8) by ring. rewrite Z.div_mul, Z.mod_small by lia. reflexivity.
    - assert (t = 75599) as -> by lia. change ((75599 * 8 + 14) / 604800) with 1. change ((75599 * 8 + 14) mod 604800) with 6. replace (e_wn m + 1356 + 1) with (e_wn m + 1357) by ring. rewrite A1.
      change (14 <? 6) with false. cbv iota. replace (e_wn m + 1357 - 1356 - 1) with (e_wn m) by ring. rewrite Z.mod_small by lia. reflexivity. }
  pose proof (T _ TE) as T1. pose proof (T _ TC) as T2. unfold bds_eph_to_sbp. destruct (time_from_bds (e_wn m) (e_toe m) 8) as [w1 s1]. destruct (time_from_bds (e_wn m) (e_toc m) 8) as [w2 s2].
  unfold sbp_to_bds_eph. cbn [s_ura s_tgd0 s_tgd1 s_af0 s_af1 s_af2 s_sat s_toe_wn s_toe s_toc_wn s_health s_toc s_iodc s_iode]. rewrite T1, T2. cbn [snd].
  unfold ubits, sbits in B3, B7, B8, B9, B26, B27. change (2 ^ 4) with 16 in B3. change (2 ^ (11 - 1)) with 1024 in *. change (2 ^ (22 - 1)) with 2097152 in *.
  change (2 ^ (24 - 1)) with 8388608 in B9. change (2 ^ (10 - 1)) with 512 in *.
  destruct (C26_bds_ura_exact eps l (e_ura m) E L ltac:(lia)) as [U _]. rewrite U. rewrite (t_back (e_tgd0 m)), (t_back (e_tgd1 m)) by lia.
  erewrite (harmonics_back c C 6 31); [|lia|lia|reflexivity|reflexivity|reflexivity|reflexivity|reflexivity|reflexivity|eapply sbits_weaken; [|eassumption]; lia..].
  erewrite (orbit_back c C); [|reflexivity|reflexivity|reflexivity|reflexivity|reflexivity|reflexivity|reflexivity|reflexivity|reflexivity|eassumption..].
  rewrite (d_back c C 33 (e_af0 m)), (fd_back c C 50 (e_af1 m)), (f_back16 c C 66 (e_af2 m)) by lia.
  destruct m as [x1 x2 x3 x4 x5 x6 x7 x8 x9 x10 x11 x12 x13 x14 x15 x16 x17 x18 x19 x20 x21 x22 x23 x24 x25 x26 x27 x28 x29 x30 x31]. cbn [e_fit e_codeL2 e_L2_data_bit] in B29, B30, B31. subst. reflexivity.
Qed.
(** finding: at the start of a BeiDou week the reference time comes back as second 604800 of the week before *)
Theorem C57_bds_week_start_refuted : forall c adj eps log2f m m', e_toe m = 0 -> adj (e_wn m + 1356) = e_wn m + 1356 ->
  sbp_to_bds_eph c eps log2f (bds_eph_to_sbp c adj m) = Some m' -> e_toe m' = 75600.
Proof.
  intros c adj eps l m m' Z A H. unfold bds_eph_to_sbp in H. rewrite Z in H. unfold time_from_bds at 1 in H. cbv zeta in H. change (0 * 8 + 14) with 14 in H.
  change (14 / 604800) with 0 in H. change (14 mod 604800) with 14 in H. rewrite Z.add_0_r, A in H. destruct (time_from_bds (e_wn m) (e_toc m) 8) as [w2 s2].
  unfold sbp_to_bds_eph, harmonics, orbit in H.
  cbn [s_ura s_tgd0 s_tgd1 s_af0 s_af1 s_af2 s_sat s_toe_wn s_toe s_toc_wn s_health s_toc s_iodc s_iode] in H.
  repeat match type of H with match ?x with Some _ => _ | None => None end = _ => destruct x; [|discriminate] end.
  destruct (get_bds_wn_tow (adj w2) s2 8) as [a b]. cbv zeta in H. apply Some_inj' in H. subst m'. reflexivity.
Qed.
(** GLONASS 1020, with the same leap seconds on both sides: every number comes back except the reserved frame length P1 = 3 and the slot t_b = 0 *)
Lemma slot_back tod rover leap t : 0 < tod < 86400000 -> tod mod 900000 = 0 -> known_time rover -> inner_week rover -> 0 <= leap <= 3600 ->
  compute_glo_time tod rover (Some leap) = (true, Some t) -> glo_t_b (tow t / 1000) leap = tod / 900000 /\ wn t <> -1.
Proof.
  intros T M R I L H. destruct (C21_glo_time_nearest tod rover leap ltac:(lia) R I L) as (t' & E & K & G & _). rewrite H in E. injection E as <-.
  destruct K as [K1 K2]. split; [|lia]. unfold glo_instant, ms_of in G. apply Z.mod_divide in G; [|lia]. destruct G as [q G]. apply Z.mod_divide in M; [|lia]. destruct M as [b M].
  assert (S : exists s, tow t = s * 1000) by (exists (q * 86400 + leap - 10800 + b * 900 - wn t * 604800); lia). destruct S as [s S]. rewrite S, Z.div_mul by lia.
  rewrite M, Z.div_mul by lia. unfold glo_t_b. set (q' := q - wn t * 7). assert (S' : s = q' * 86400 + leap - 10800 + b * 900) by lia. clear G.
  assert (B : 0 < b < 96) by lia. assert (SB : 0 <= s < 604800) by lia. clear K1 K2 S H M. clearbody q'.
  destruct (Z.leb_spec leap s) as [P|P].
  - rewrite Z.rem_mod_nonneg by lia. destruct (Z.leb_spec 12 b).
    + replace ((s - leap) mod 86400) with (b * 900 - 10800) by (apply Z.mod_unique with q'; lia). destruct (Z.ltb_spec 86400 (b * 900 - 10800 + 3 * 3600)); [lia|].
      replace (b * 900 - 10800 + 3 * 3600) with (b * 900) by ring. rewrite Z.quot_mul by lia. apply Z.mod_small. lia.
    + replace ((s - leap) mod 86400) with (b * 900 - 10800 + 86400) by (apply Z.mod_unique with (q' - 1); lia). destruct (Z.ltb_spec 86400 (b * 900 - 10800 + 86400 + 3 * 3600)); [|lia].
      replace (b * 900 - 10800 + 86400 + 3 * 3600 - 86400) with (b * 900) by ring. rewrite Z.quot_mul by lia. apply Z.mod_small. lia.
  - assert (q' = 0) as -> by lia. replace (Z.rem (s - leap) 86400) with (s - leap).
    + destruct (Z.ltb_spec 86400 (s - leap + 3 * 3600)); [lia|]. replace (s - leap + 3 * 3600) with (b * 900) by lia. rewrite Z.quot_mul by lia. apply Z.mod_small. lia.
    + rewrite <- (Z.opp_involutive (s - leap)), Z.rem_opp_l by lia. rewrite Z.rem_small by lia. ring.
Qed.
Theorem C57_glo_round_trip_partial : forall c eps log2f m rover leap junk s, consts_ok c -> eps_ok eps -> wf_glo m -> g_fit m <> 3 -> 1 <= g_t_b m <= 95 ->
  known_time rover -> inner_week rover -> 0 <= leap <= 3600 -> glo_eph_to_sbp c m rover (Some leap) = Some s -> sbp_to_glo_eph c eps log2f s (Some leap) junk = Some m.
Proof.
  intros c eps l m rover leap junk s C E W P T R I L H. destruct W as (B1 & B2 & B3 & B4 & B5 & B6 & B7 & B8 & B9 & B10 & B11 & B12 & B13 & B14 & B15 & B16 & B17 & B18).
  unfold glo_eph_to_sbp in H. destruct (compute_glo_time _ _ _) as [[|] [t|]] eqn:G; try discriminate.
  destruct (slot_back (g_t_b m * 15 * 60 * 1000) rover leap t ltac:(lia) ltac:(replace (g_t_b m * 15 * 60 * 1000) with (g_t_b m * 900000) by ring; apply Z.mod_mul; lia) R I L G) as [SL NW].
  destruct (wn t =? -1); [discriminate|]. destruct (g_sat m =? 0); [discriminate|]. apply Some_inj' in H. subst s.
  unfold sbp_to_glo_eph. cbn [sg_ura sg_gamma sg_tau sg_d_tau sg_pos0 sg_pos1 sg_pos2 sg_vel0 sg_vel1 sg_vel2 sg_acc0 sg_acc1 sg_acc2 sg_sat sg_fit sg_health sg_toe sg_fcn].
  unfold ubits, smag in *. change (2 ^ 4) with 16 in *. change (2 ^ 5) with 32 in *. change (2 ^ 2) with 4 in *. change (2 ^ (24 - 1)) with 8388608 in *. change (2 ^ (27 - 1)) with 67108864 in *.
  change (2 ^ (5 - 1)) with 16 in *. change (2 ^ (11 - 1)) with 1024 in *. change (2 ^ (22 - 1)) with 2097152 in *.
  destruct (C26_glo_ft_exact eps l (g_ura m) E ltac:(lia)) as [U _]. rewrite U.
  rewrite (f_back16 c C 40 (g_gamma m)), (f_back c C 30 (g_tau m)), (f_back8 c C 30 (g_d_tau m)) by lia.
  rewrite (k_back c C 11 (g_pos0 m)), (k_back c C 11 (g_pos1 m)), (k_back c C 11 (g_pos2 m)) by lia.
  rewrite (k_back c C 20 (g_vel0 m)), (k_back c C 20 (g_vel1 m)), (k_back c C 20 (g_vel2 m)) by lia.
  rewrite (kf_back c C 30 (g_acc0 m)), (kf_back c C 30 (g_acc1 m)), (kf_back c C 30 (g_acc2 m)) by lia.
  rewrite C26_glo_fit_round_trip by lia. rewrite SL. replace (g_t_b m * 15 * 60 * 1000) with (g_t_b m * 900000) by ring. rewrite Z.div_mul by lia.
  rewrite (Z.mod_small (g_fcn m + 1)) by lia. replace (g_fcn m + 1 - 1) with (g_fcn m) by ring. rewrite (Z.mod_small (g_fcn m)) by lia. destruct m; reflexivity.
Qed.
(** finding: a GLONASS ephemeris for the first quarter hour of the Moscow day comes back with slot 96, outside 0..95 *)
Theorem C57_glo_midnight_refuted : forall rover leap t, known_time rover -> inner_week rover -> 0 <= leap <= 3600 ->
  compute_glo_time 0 rover (Some leap) = (true, Some t) -> leap <= tow t / 1000 -> glo_t_b (tow t / 1000) leap = 96.
Proof.
  intros rover leap t R I L H P. destruct (C21_glo_time_nearest 0 rover leap ltac:(lia) R I L) as (t' & E & K & G & _). rewrite H in E. injection E as <-.
  destruct K as [K1 K2]. unfold glo_instant, ms_of in G. apply Z.mod_divide in G; [|lia]. destruct G as [q G].
  assert (S : exists s, tow t = s * 1000) by (exists (q * 86400 + leap - 10800 - wn t * 604800); lia). destruct S as [s S]. rewrite S, Z.div_mul in * by lia.
  set (q' := q - wn t * 7). assert (S' : s - leap = q' * 86400 - 10800) by lia. unfold glo_t_b. rewrite Z.rem_mod_nonneg by lia.
  replace ((s - leap) mod 86400) with 75600 by (apply Z.mod_unique with (q' - 1); lia). reflexivity.
Qed.
(** finding: with leap seconds unknown to the output side the slot is whatever was in memory *)
Theorem C57_glo_uninitialised_refuted : forall c eps log2f s junk m, sbp_to_glo_eph c eps log2f s None junk = Some m -> g_t_b m = junk /\ g_health m = 1.
Proof.
  intros c eps l s junk m H. unfold sbp_to_glo_eph in H.
  repeat match type of H with match ?x with Some _ => _ | None => None end = _ => destruct x; [|discriminate] end. apply Some_inj' in H. subst m. split; reflexivity.
Qed.
(** finding: the Galileo issue of data that is transmitted is SBP's iodc, not its iode *)
Theorem C57_gal_iodnav_refuted : forall c s m, sbp_to_gal_eph c s = Some m -> e_iode m = s_iodc s.
Proof.
  intros c s m H. unfold sbp_to_gal_eph, harmonics, orbit in H.
  repeat match type of H with match ?x with Some _ => _ | None => None end = _ => destruct x; [|discriminate] end. apply Some_inj' in H. subst m. reflexivity.
Qed.
(** finding: SBP values outside the range of RTCM's integers are converted with undefined behaviour (here, C_rs = 2^27 m) *)
Theorem C57_out_of_range_undefined_refuted : forall c eps log2f s, consts_exact c -> s_crs s = fofZ 1 27 -> sbp_to_gps_eph c eps log2f s = None.
Proof.
  intros c eps l s C H. unfold sbp_to_gps_eph, harmonics. rewrite H.
  assert (N : r32 (uf c 5 (fofZ 1 27)) = None).
  { destruct (C 5 ltac:(lia)) as [F V]. unfold r32, conv, uf.
    assert (FX : is_finite 24 128 (fofZ 1 27) = true) by reflexivity. destruct (dofflt_exact _ FX) as [F1 V1].
    assert (VX : B2R 24 128 (fofZ 1 27) = IZR (2 ^ 27)) by (transitivity (F2R (Float radix2 8388608 4)); [vm_compute; reflexivity|rewrite F2R_pos by lia; reflexivity]).
    rewrite VX in V1.
    assert (D : (dR (dofflt (fofZ 1%Z 27%Z)) / dR (c 5%Z) = IZR (2 ^ 32))%R).
    { rewrite V1, V. change (bpow radix2 (- (5))) with (/ 32)%R. change (IZR (2 ^ 32)) with 4294967296%R. change (IZR (2 ^ 27)) with 134217728%R. lra. }
    destruct (ddiv_spec (dofflt (fofZ 1 27)) (c 5) F1) as [F2 V2].
    - rewrite V. apply Rgt_not_eq, bpow_gt_0.
    - rewrite D, Rabs_pos_eq by (apply IZR_le; lia). rewrite pow_bpow by lia. apply bpow_le. lia.
    - rewrite D in V2. rewrite rnd_id in V2 by (apply int_format; lia).
      destruct (dround (ddiv (dofflt (fofZ 1 27)) (c 5))) as [z|] eqn:Q; [|reflexivity]. apply dround_close in Q. rewrite V2, <- minus_IZR in Q. rewrite <- abs_IZR in Q.
      assert (Z.abs (z - 2 ^ 32) < 1) by (apply lt_IZR; lra). destruct (Z.leb_spec (- 2 ^ 31) z), (Z.ltb_spec z (2 ^ 31)); try reflexivity; lia. }
  rewrite N. destruct (gps_uri_to_ura eps l (s_ura s)); [|reflexivity]. destruct (r32 (uf c 31 (s_tgd0 s))); reflexivity.
Qed.

(** ** C58 *)
Lemma abs_sbits n v b : sbits n v -> 1 <= n -> n - 1 < b -> Z.abs v < 2 ^ b.
Proof. unfold sbits. intros H N B. assert (2 ^ (n - 1) < 2 ^ b) by (apply Z.pow_lt_mono_r; lia). lia. Qed.
Ltac values C := eapply (orbit_values_of _ _ _ _ _ C); first [reflexivity | eassumption | solve [eapply sbits_weaken; [|eassumption]; lia] | lia].
(** GPS: the SBP message carries the physical values of the RTCM message *)
Theorem C58_gps_values : forall c adj mw m s, consts_exact c -> wf_gps m -> gps_eph_to_sbp c adj mw m = Some s ->
  orbit_values 5 29 m s /\ clock_values 31 43 55 m s /\ fexact (s_tgd0 s) (scaled (e_tgd0 m) 31) /\
  s_sat s = e_sat m /\ s_code s = 0 /\ s_toe s = 16 * e_toe m /\ s_toc s = 16 * e_toc m /\ s_iode s = e_iode m /\ s_iodc s = e_iodc m /\ s_health s = e_health m /\
  (s_valid s = true <-> e_iodc m mod 256 = e_iode m).
Proof.
  intros c adj mw m s C W H.
  destruct W as (B1 & B2 & B3 & B4 & B5 & B6 & B7 & B8 & B9 & B10 & B11 & B12 & B13 & B14 & B15 & B16 & B17 & B18 & B19 & B20 & B21 & B22 & B23 & B24 & B25 & B26 & B27 & B28 & B29 & B30).
  unfold gps_eph_to_sbp in H. destruct (mw _ _) as [w1|]; [|discriminate]. destruct (mw _ _) as [w2|]; [|discriminate]. apply Some_inj' in H. subst s.
  split; [values C|]. split; [unfold clock_values; cbn [s_af0 s_af1 s_af2]|].
  - split; [apply dofflt_dexact, (qf_exact c C); [lia|eapply abs_sbits; [exact B10|lia|lia]]|]. split; [apply dofflt_dexact, (qf_exact c C); [lia|eapply abs_sbits; [exact B9|lia|lia]]|].
    apply (qf_exact c C); [lia|eapply abs_sbits; [exact B8|lia|lia]].
  - cbn [s_tgd0 s_sat s_code s_toe s_toc s_iode s_iodc s_health s_valid]. split; [apply (qf_exact c C); [lia|eapply abs_sbits; [exact B27|lia|lia]]|].
    repeat split; try ring. 
    + intros Q. apply Z.eqb_eq in Q. change 255 with (Z.ones 8) in Q. rewrite Z.land_ones in Q by lia. exact Q.
    + intros Q. apply Z.eqb_eq. change 255 with (Z.ones 8). rewrite Z.land_ones by lia. exact Q.
Qed.
(** the concrete message of the example above *)
Example C58_gps_example : let s := gps_eph_to_sbp two_pow (fun w => w) (fun _ _ => Some 2275) eph_example in
  match s with Some s => fexact (s_crs s) (-1234 / 32) /\ radians (s_w s) (-1 / 2147483648) | None => False end.
Proof.
  cbv zeta. destruct (gps_eph_to_sbp two_pow (fun w => w) (fun _ _ => Some 2275) eph_example) as [s|] eqn:E; [|discriminate].
  destruct (C58_gps_values two_pow (fun w => w) (fun _ _ => Some 2275) eph_example s two_pow_exact (proj1 C57_gps_example) E) as (V & _).
  destruct V as (V1 & _ & _ & _ & _ & _ & _ & _ & _ & _ & _ & _ & V2 & _). split; [exact V1|]. replace (-1 / 2147483648)%R with (scaled (e_w eph_example) 31); [exact V2|]. unfold scaled. change (bpow radix2 (- (31))) with (/ 2147483648)%R. reflexivity.
Qed.
(** QZSS: the same scales; satellites are numbered from 193 *)
Definition wf_qzss (m : keph) : Prop :=
  ubits 4 (e_sat m) /\ ubits 10 (e_wn m) /\ ubits 4 (e_ura m) /\ sbits 14 (e_inc_dot m) /\ ubits 8 (e_iode m) /\
  ubits 16 (e_toc m) /\ sbits 8 (e_af2 m) /\ sbits 16 (e_af1 m) /\ sbits 22 (e_af0 m) /\ ubits 10 (e_iodc m) /\ sbits 16 (e_crs m) /\
  sbits 16 (e_dn m) /\ sbits 32 (e_m0 m) /\ sbits 16 (e_cuc m) /\ ubits 32 (e_ecc m) /\ sbits 16 (e_cus m) /\ ubits 32 (e_sqrta m) /\
  ubits 16 (e_toe m) /\ sbits 16 (e_cic m) /\ sbits 32 (e_omega0 m) /\ sbits 16 (e_cis m) /\ sbits 32 (e_inc m) /\ sbits 16 (e_crc m) /\
  sbits 32 (e_w m) /\ sbits 24 (e_omegadot m) /\ sbits 8 (e_tgd0 m) /\ ubits 6 (e_health m) /\ ubits 1 (e_fit m).
Theorem C58_qzss_values : forall c adj m, consts_exact c -> wf_qzss m -> let s := qzss_eph_to_sbp c adj m in
  orbit_values 5 29 m s /\ clock_values 31 43 55 m s /\ fexact (s_tgd0 s) (scaled (e_tgd0 m) 31) /\
  s_sat s = e_sat m + 192 /\ s_code s = 31 /\ s_toe s = 16 * e_toe m /\ s_toc s = 16 * e_toc m /\ s_iode s = e_iode m /\ s_iodc s = e_iodc m /\ s_health s = e_health m /\ s_toe_wn s = s_toc_wn s.
Proof.
  intros c adj m C W s. destruct W as (B1 & B2 & B3 & B5 & B6 & B7 & B8 & B9 & B10 & B11 & B12 & B13 & B14 & B15 & B16 & B17 & B18 & B19 & B20 & B21 & B22 & B23 & B24 & B25 & B26 & B27 & B28 & B29).
  unfold s, qzss_eph_to_sbp. split; [values C|]. split; [unfold clock_values; cbn [s_af0 s_af1 s_af2]|].
  - split; [apply dofflt_dexact, (qf_exact c C); [lia|eapply abs_sbits; [exact B10|lia|lia]]|]. split; [apply dofflt_dexact, (qf_exact c C); [lia|eapply abs_sbits; [exact B9|lia|lia]]|].
    apply (qf_exact c C); [lia|eapply abs_sbits; [exact B8|lia|lia]].
  - cbn [s_tgd0 s_sat s_code s_toe s_toc s_iode s_iodc s_health s_valid s_toe_wn s_toc_wn]. split; [apply (qf_exact c C); [lia|eapply abs_sbits; [exact B27|lia|lia]]|].
    unfold ubits in B1. change (2 ^ 4) with 16 in B1. repeat split; try ring. apply Z.mod_small. lia.
Qed.
(** finding: a QZSS ephemeris whose 10-bit IODC exceeds 255 is marked invalid although its low byte matches IODE; the same GPS message is valid *)
Theorem C58_qzss_valid_flag_refuted : forall c adj mw m, 256 <= e_iodc m -> 0 <= e_iode m < 256 -> e_iodc m mod 256 = e_iode m ->
  s_valid (qzss_eph_to_sbp c adj m) = false /\ (forall s, gps_eph_to_sbp c adj mw m = Some s -> s_valid s = true).
Proof.
  intros c adj mw m H1 H2 H3. split.
  - cbn [qzss_eph_to_sbp s_valid]. destruct (Z.eqb_spec (e_iodc m) (e_iode m)); [lia|reflexivity].
  - intros s H. unfold gps_eph_to_sbp in H. destruct (mw _ _) as [w1|]; [|discriminate]. destruct (mw _ _) as [w2|]; [|discriminate]. apply Some_inj' in H. subst s. cbn [s_valid].
    apply Z.eqb_eq. change 255 with (Z.ones 8). rewrite Z.land_ones by lia. exact H3.
Qed.
(** Galileo *)
Theorem C58_gal_values : forall c adj mw m src s, consts_exact c -> wf_gal m -> sbits 10 (e_tgd1 m) -> gal_eph_to_sbp c adj mw m src = Some s ->
  orbit_values 5 29 m s /\ clock_values 34 46 59 m s /\ fexact (s_tgd0 s) (scaled (e_tgd0 m) 32) /\ fexact (s_tgd1 s) (scaled (e_tgd1 m) 32) /\
  s_sat s = e_sat m /\ s_code s = 14 /\ s_toe s = 60 * e_toe m /\ s_toc s = 60 * e_toc m /\ s_iode s = e_iode m /\ s_iodc s = e_iode m /\ s_health s = e_health m /\ s_source s = src /\ s_fit s = 14400.
Proof.
  intros c adj mw m src s C W T H.
  destruct W as (B1 & B2 & B3 & B4 & B5 & B6 & B7 & B8 & B9 & B10 & B11 & B12 & B13 & B14 & B15 & B16 & B17 & B18 & B19 & B20 & B21 & B22 & B23 & B24 & B25 & B26 & B27 & B28 & B29).
  unfold gal_eph_to_sbp in H. destruct (mw _ _) as [w1|]; [|discriminate]. destruct (mw _ _) as [w2|]; [|discriminate]. apply Some_inj' in H. subst s.
  split; [values C|]. split; [unfold clock_values; cbn [s_af0 s_af1 s_af2]|].
  - split; [apply (qd_exact c C); [lia|eapply abs_sbits; [exact B9|lia|lia]]|]. split; [apply (qd_exact c C); [lia|eapply abs_sbits; [exact B8|lia|lia]]|].
    apply (qf_exact c C); [lia|eapply abs_sbits; [exact B7|lia|lia]].
  - cbn [s_tgd0 s_tgd1 s_sat s_code s_toe s_toc s_iode s_iodc s_health s_source s_fit]. split; [apply (qf_exact c C); [lia|eapply abs_sbits; [exact B25|lia|lia]]|].
    split; [apply (qf_exact c C); [lia|eapply abs_sbits; [exact T|lia|lia]]|]. repeat split; ring.
Qed.
(** BeiDou: reference times are GPS times, 14 seconds later *)
Theorem C58_bds_values : forall c adj m, consts_exact c -> wf_bds m -> (forall w, e_wn m + 1356 <= w -> adj w = w) -> let s := bds_eph_to_sbp c adj m in
  orbit_values 6 31 m s /\ clock_values 33 50 66 m s /\ fclose (s_tgd0 s) (IZR (e_tgd0 m) / 10000000000) /\ fclose (s_tgd1 s) (IZR (e_tgd1 m) / 10000000000) /\
  s_sat s = e_sat m /\ s_code s = 12 /\ s_iode s = e_iode m /\ s_iodc s = e_iodc m /\ s_health s = e_health m /\ s_fit s = 10800 /\
  0 <= s_toe s < 604800 /\ s_toe_wn s * 604800 + s_toe s = (e_wn m + 1356) * 604800 + 8 * e_toe m + 14 /\
  0 <= s_toc s < 604800 /\ s_toc_wn s * 604800 + s_toc s = (e_wn m + 1356) * 604800 + 8 * e_toc m + 14.
Proof.
  intros c adj m C W A s. destruct W as (B1 & B2 & B3 & B4 & B5 & B6 & B7 & B8 & B9 & B10 & B11 & B12 & B13 & B14 & B15 & B16 & B17 & B18 & B19 & B20 & B21 & B22 & B23 & B24 & B25 & B26 & B27 & B28 & B29 & B30 & B31).
  unfold s, bds_eph_to_sbp, time_from_bds. split; [values C|]. split; [unfold clock_values; cbn [s_af0 s_af1 s_af2]|].
  - split; [apply (qd_exact c C); [lia|eapply abs_sbits; [exact B9|lia|lia]]|]. split; [apply dofflt_dexact, (qf_exact c C); [lia|eapply abs_sbits; [exact B8|lia|lia]]|].
    apply (qf_exact c C); [lia|eapply abs_sbits; [exact B7|lia|lia]].
  - cbn [s_tgd0 s_tgd1 s_sat s_code s_toe s_toc s_toe_wn s_toc_wn s_iode s_iodc s_health s_fit].
    split; [apply tgd_close; apply Z.lt_le_incl; eapply abs_sbits; [exact B26|lia|lia]|]. split; [apply tgd_close; apply Z.lt_le_incl; eapply abs_sbits; [exact B27|lia|lia]|].
    unfold ubits in B6, B18. pose proof (Z.div_pos (e_toe m * 8 + 14) 604800 ltac:(lia) ltac:(lia)). pose proof (Z.div_pos (e_toc m * 8 + 14) 604800 ltac:(lia) ltac:(lia)).
    rewrite !A by lia. pose proof (Z.mod_pos_bound (e_toe m * 8 + 14) 604800 ltac:(lia)). pose proof (Z.mod_pos_bound (e_toc m * 8 + 14) 604800 ltac:(lia)).
    pose proof (Z.div_mod (e_toe m * 8 + 14) 604800 ltac:(lia)). pose proof (Z.div_mod (e_toc m * 8 + 14) 604800 ltac:(lia)). repeat split; try lia.
Qed.
(** GLONASS: kilometres become metres; the reference time is an instant whose Moscow time of day is 15 minutes times t_b, the closest to the receiver's time *)
Theorem C58_glo_values : forall c m rover leap s, consts_exact c -> wf_glo m -> known_time rover -> inner_week rover -> 0 <= leap <= 3600 -> g_t_b m <= 95 ->
  glo_eph_to_sbp c m rover (Some leap) = Some s ->
  fexact (sg_gamma s) (scaled (g_gamma m) 40) /\ fexact (sg_tau s) (scaled (g_tau m) 30) /\ fexact (sg_d_tau s) (scaled (g_d_tau m) 30) /\
  dexact (sg_pos0 s) (scaled (g_pos0 m * 1000) 11) /\ dexact (sg_pos1 s) (scaled (g_pos1 m * 1000) 11) /\ dexact (sg_pos2 s) (scaled (g_pos2 m * 1000) 11) /\
  dexact (sg_vel0 s) (scaled (g_vel0 m * 1000) 20) /\ dexact (sg_vel1 s) (scaled (g_vel1 m * 1000) 20) /\ dexact (sg_vel2 s) (scaled (g_vel2 m * 1000) 20) /\
  fexact (sg_acc0 s) (scaled (g_acc0 m * 1000) 30) /\ fexact (sg_acc1 s) (scaled (g_acc1 m * 1000) 30) /\ fexact (sg_acc2 s) (scaled (g_acc2 m * 1000) 30) /\
  sg_sat s = g_sat m /\ 1 <= g_sat m /\ sg_code s = 3 /\ sg_fcn s = g_fcn m + 1 /\ sg_health s = g_health m /\
  0 <= sg_toe s < 604800 /\ glo_instant (g_t_b m * 900000) leap (sg_toe_wn s * 604800000 + sg_toe s * 1000) /\
  2 * Z.abs (sg_toe_wn s * 604800000 + sg_toe s * 1000 - ms_of rover) <= 86400000.
Proof.
  intros c m rover leap s C W R I L T H. destruct W as (B1 & B2 & B3 & B4 & B5 & B6 & B7 & B8 & B9 & B10 & B11 & B12 & B13 & B14 & B15 & B16 & B17 & B18).
  unfold ubits, smag in *. change (2 ^ 5) with 32 in *. change (2 ^ 7) with 128 in *. change (2 ^ (24 - 1)) with 8388608 in *. change (2 ^ (27 - 1)) with 67108864 in *.
  change (2 ^ (5 - 1)) with 16 in *. change (2 ^ (11 - 1)) with 1024 in *. change (2 ^ (22 - 1)) with 2097152 in *.
  destruct (C21_glo_time_nearest (g_t_b m * 900000) rover leap ltac:(lia) R I L) as (t & E & K & G & N & _).
  unfold glo_eph_to_sbp in H. replace (g_t_b m * 15 * 60 * 1000) with (g_t_b m * 900000) in H by ring. rewrite E in H.
  destruct (wn t =? -1); [discriminate|]. destruct (Z.eqb_spec (g_sat m) 0) as [|NS]; [discriminate|]. apply Some_inj' in H. subst s.
  cbn [sg_ura sg_gamma sg_tau sg_d_tau sg_pos0 sg_pos1 sg_pos2 sg_vel0 sg_vel1 sg_vel2 sg_acc0 sg_acc1 sg_acc2 sg_sat sg_code sg_fit sg_health sg_toe sg_toe_wn sg_fcn].
  assert (F : forall k n, 5 <= k <= 66 -> Z.abs n < 1000 -> fexact (f32 (dmul (qd c k n) (dofZ 1000))) (scaled (n * 1000) k)).
  { intros k n Hk Hn. apply f32_exact; [apply (km_exact c C); lia|lia|lia]. }
  assert (S : exists q, tow t = q * 1000).
  { unfold glo_instant, ms_of in G. apply Z.mod_divide in G; [|lia]. destruct G as [q G]. exists (q * 86400 + leap - 10800 + g_t_b m * 900 - wn t * 604800). lia. }
  destruct S as [q S]. rewrite S, Z.div_mul by lia. replace (wn t * 604800000 + q * 1000) with (ms_of t) by (unfold ms_of; lia).
  destruct K as [K1 K2].
  split; [apply (qf_exact c C); lia|]. split; [apply (qf_exact c C); lia|]. split; [apply (qf_exact c C); lia|].
  split; [apply (km_exact c C); lia|]. split; [apply (km_exact c C); lia|]. split; [apply (km_exact c C); lia|].
  split; [apply (km_exact c C); lia|]. split; [apply (km_exact c C); lia|]. split; [apply (km_exact c C); lia|].
  split; [apply F; lia|]. split; [apply F; lia|]. split; [apply F; lia|].
  split; [reflexivity|]. split; [lia|]. split; [reflexivity|]. split; [apply Z.mod_small; lia|]. split; [reflexivity|]. split; [lia|]. split; [exact G|exact N].
Qed.
(** GLONASS has no issue of data: the number sent in its place is the low seven bits of the reference time in seconds of the Moscow day, so that two ephemerides
    whose reference times differ by less than eight hours never carry the same one; at eight hours they do *)
Theorem C58_glo_iod : forall c m rover leap s, 0 <= g_t_b m -> glo_eph_to_sbp c m rover leap = Some s -> sg_iod s = (g_t_b m * 900) mod 128.
Proof.
  intros c m rover leap s T H. unfold glo_eph_to_sbp in H. destruct (compute_glo_time _ _ _) as [[|] [t|]]; try discriminate.
  destruct (wn t =? -1); [discriminate|]. destruct (g_sat m =? 0); [discriminate|]. apply Some_inj' in H. subst s. cbn [sg_iod].
  change 127 with (Z.ones 7). rewrite Z.land_ones by lia. f_equal. ring.
Qed.
Theorem C58_glo_iod_distinct : forall c m m' rover rover' leap leap' s s', 0 <= g_t_b m < 128 -> 0 <= g_t_b m' < 128 ->
  glo_eph_to_sbp c m rover leap = Some s -> glo_eph_to_sbp c m' rover' leap' = Some s' ->
  (sg_iod s = sg_iod s' <-> (g_t_b m - g_t_b m') mod 32 = 0).
Proof.
  intros c m m' rover rover' leap leap' s s' T T' H H'. rewrite (C58_glo_iod _ _ _ _ _ (proj1 T) H), (C58_glo_iod _ _ _ _ _ (proj1 T') H'). clear H H'.
  revert T T'. generalize (g_t_b m) (g_t_b m'). clear. intros a b A B. split; intro H.
  - pose proof (Z.div_mod (a * 900) 128 ltac:(lia)) as Ea. pose proof (Z.div_mod (b * 900) 128 ltac:(lia)) as Eb. rewrite H in Ea.
    assert (D : (a - b) * 225 = 32 * (a * 900 / 128 - b * 900 / 128)) by lia.
    set (q := a * 900 / 128 - b * 900 / 128) in *. replace (a - b) with ((q - 7 * (a - b)) * 32) by lia. apply Z.mod_mul. lia.
  - apply Z.mod_divide in H; [|lia]. destruct H as [q H]. replace (a * 900) with (b * 900 + (225 * q) * 128) by lia. apply Z.mod_add. lia.
Qed.
(** the hypotheses of the Galileo, BeiDou, QZSS and GLONASS theorems are met by messages with extreme values *)
Definition gal_example : keph := mkkeph 36 1250 10079 125 0 21 (-512) 511 (-32768) 32767 (-777) 12000 15 (-16) 11111 (-2000000000) 4000000000 2852000000 1999999999 (-8388608) (-1) 666666666 (-8191) (-1073741824) 1048575 (-32) 10079 0 1023 0 false.
Definition bds_example : keph := mkkeph 63 890 75599 15 0 1 (-512) 511 (-131072) 131071 (-777) 12000 15 (-16) 11111 (-2000000000) 4000000000 2852000000 1999999999 (-8388608) (-1) 666666666 (-8191) (-8388608) 2097151 (-1024) 1 31 30 0 false.
Definition qzss_example : keph := mkkeph 7 227 37799 2 1 63 (-128) 0 (-32768) 32767 (-777) 12000 15 (-16) 11111 (-2000000000) 4000000000 2852000000 1999999999 (-8388608) (-1) 666666666 (-8191) (-2097152) 32767 (-128) 37799 566 54 0 false.
Definition glo_example : geph := mkgeph 24 15 2 1 (-1023) 2097151 (-15) 95 67108863 (-67108863) 1 8388607 (-8388607) (-1) 15 (-15) 1 13.
Example C57_gal_example : wf_gal gal_example /\ sbits 10 (e_tgd1 gal_example) /\ e_ura gal_example <= 125 /\
  exists s, gal_eph_to_sbp two_pow (fun w => w) (fun _ _ => Some 2274) gal_example 0 = Some s /\ s_toe_wn s = e_wn gal_example + 1024.
Proof. split; [unfold wf_gal, ubits, sbits; cbn; repeat split; lia|]. split; [unfold sbits; cbn; lia|]. split; [cbn; lia|]. eexists. split; reflexivity. Qed.
Example C57_bds_example : wf_bds bds_example /\ 0 < e_toe bds_example < 75600 /\ 0 < e_toc bds_example < 75600.
Proof. split; [unfold wf_bds, ubits, sbits; cbn; repeat split; lia|]. cbn. lia. Qed.
Example C58_qzss_example : wf_qzss qzss_example /\ 256 <= e_iodc qzss_example /\ e_iodc qzss_example mod 256 = e_iode qzss_example.
Proof. split; [unfold wf_qzss, ubits, sbits; cbn; repeat split; lia|]. split; [cbn; lia|reflexivity]. Qed.
Example C57_glo_example : let rover := mkt 2275 172800000 in wf_glo glo_example /\ g_fit glo_example <> 3 /\ 1 <= g_t_b glo_example <= 95 /\ known_time rover /\ inner_week rover /\
  exists s, glo_eph_to_sbp two_pow glo_example rover (Some 18) = Some s /\ sg_toe s = 86400 + (23 * 60 + 45 - 180) * 60 + 18.
Proof.
  cbv zeta. split; [unfold wf_glo, ubits, smag; cbn; repeat split; lia|]. split; [cbn; lia|]. split; [cbn; lia|]. split; [unfold known_time; cbn; lia|]. split; [unfold inner_week; cbn; lia|].
  eexists. split; [reflexivity|]. cbn [sg_toe]. vm_compute.  reflexivity.
Qed.

Print Assumptions C58_glo_iod.
Print Assumptions C58_glo_iod_distinct.
Print Assumptions C57_gps_round_trip_partial.
Print Assumptions two_pow_exact.
Print Assumptions C57_gps_l2_flags_refuted.
Print Assumptions C57_gal_round_trip_partial.
Print Assumptions C57_bds_round_trip_partial.
Print Assumptions C57_bds_week_start_refuted.
Print Assumptions C57_glo_round_trip_partial.
Print Assumptions C57_glo_midnight_refuted.
Print Assumptions C57_glo_uninitialised_refuted.
Print Assumptions C57_gal_iodnav_refuted.
Print Assumptions C57_out_of_range_undefined_refuted.
Print Assumptions C58_gps_values.
Print Assumptions C58_qzss_values.
Print Assumptions C58_qzss_valid_flag_refuted.
Print Assumptions C58_gal_values.
Print Assumptions C58_bds_values.
Print Assumptions C58_glo_values.
