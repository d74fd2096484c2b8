(** Property C76: an SBP ephemeris sent over RTCM arrives as the same ephemeris. *)
From Coq Require Import Reals Lra.
From Flocq Require Import Core IEEE754.Binary IEEE754.Bits.
From Verif Require Import Base Double_model Double_proofs UbxObs_model UbxObs_proofs Esf_model Ixcom_model Ixcom_float_proofs Tables_model Tables_spec Bitstream_model
  RtcmStation_model RtcmStation_spec RtcmEph_model RtcmEph_spec RtcmEph_proofs Time_model Time_proofs SbpEph_model SbpEph_spec Near_proofs SbpEph_proofs Abs_proofs EphOut_model EphOut_spec EphOut_proofs EphOut_msg_proofs EphOut_relay_proofs
  RtcmFraming_model RtcmFraming_spec RtcmFrameOut_model StaConv_model StaConv_spec StaConv_wire_proofs Tunnel_proofs Properties_tables Properties_time Properties_eph Properties_sbpeph.
Open Scope Z_scope.

(** the frame f is written, and whatever the chunking of the stream, the receiver gets exactly it *)
Definition sent (r : res (list Z)) (f : list Z) : Prop :=
  r = Ok f /\ valid_frame f /\ forall chunks, Forall good_read chunks -> concat chunks = f -> exists st, RtcmFraming_model.run chunks = Some (st, [f]).
Lemma sent_of r f : r = Ok f -> valid_frame f -> sent r f.
Proof.
  intros E V. split; [exact E|]. split; [exact V|]. intros chunks G K. apply frames_delivered; [constructor; [exact V|constructor]|exact G|]. cbn [concat]. rewrite app_nil_r. exact K.
Qed.
Ltac nxt := split; [first [assumption | reflexivity]|].

(** GPS: everything within half a unit, but the two reference times are exchanged.  [mw]: the receiver's resolution of the 10-bit week *)
Theorem C76_gps_received : forall c adj mw eps log2f s n wa wb, consts_exact c -> eps_ok eps -> log2_ok log2f ->
  gps_representable s -> 0 <= n <= 15 -> s_ura s = ura_to_uri n ->
  mw (adj (s_toc_wn s mod 1024)) (s_toc s) = Some wa -> mw (adj (s_toc_wn s mod 1024)) (s_toe s) = Some wb ->
  exists f s', sent (gps_eph_cb c eps log2f s) f /\
    (forall solved rover leap, eph_rx c adj mw solved rover leap (payload_of f) = [(61568, EGps s')]) /\
    orbit_received 5 29 s' s /\ clock_received 31 43 55 s' s /\ fhalf (unit2 31) (s_tgd0 s') (s_tgd0 s) /\ s_sat s' = s_sat s /\ s_code s' = 0 /\ s_ura s' = s_ura s /\
    s_health s' = s_health s /\ s_iode s' = s_iode s /\ s_iodc s' = s_iodc s /\ (s_fit s = 14400 -> s_fit s' = 14400) /\
    s_toe s' = s_toc s /\ s_toe_wn s' = wa /\ s_toc s' = s_toe s /\ s_toc_wn s' = wb.
Proof.
  intros c adj mw eps l s n wa wb C E L R N U MA MB.
  destruct (gps_out c eps l s n C E L R N U) as (m & EM & W & ON & OB & CN & TN & P1 & P2 & P3 & P4 & P5 & P6 & P7 & P8 & P9).
  destruct (framed _ _ _ _ (rt_gps m W) ltac:(lia)) as (f & EF & V & D & BY & _). destruct R as (_ & _ & _ & _ & _ & _ & _ & _ & M1 & _ & M2).
  assert (D16 : s_toe s / 16 * 16 = s_toe s) by (pose proof (Z.div_mod (s_toe s) 16 ltac:(lia)); lia). assert (D16' : s_toc s / 16 * 16 = s_toc s) by (pose proof (Z.div_mod (s_toc s) 16 ltac:(lia)); lia).
  set (m' := swap_toe_toc m) in *. assert (W' : wf_gps m') by (unfold m', swap_toe_toc, wf_gps in *; kproj; tauto).
  assert (X : exists s', gps_eph_to_sbp c adj mw m' = Some s' /\ s_toe_wn s' = wa /\ s_toc_wn s' = wb /\ s_ura s' = ura_to_uri n /\ s_fit s' = decode_fit_interval_gps (e_fit m) (e_iodc m)).
  { unfold gps_eph_to_sbp. replace (e_wn m') with (s_toc_wn s mod 1024) by (rewrite <- P2; reflexivity). replace (e_toe m') with (s_toc s / 16) by (rewrite <- P4; reflexivity). replace (e_toc m') with (s_toe s / 16) by (rewrite <- P3; reflexivity).
    rewrite D16, D16', MA, MB. eexists. split; [reflexivity|]. cbn [s_toe_wn s_toc_wn s_ura s_fit]. split; [reflexivity|]. split; [reflexivity|]. replace (e_ura m') with n by (rewrite <- P5; reflexivity). split; reflexivity. }
  destruct X as (s' & ES & XA & XB & XU & XF). exists f, s'.
  split; [apply sent_of; [unfold gps_eph_cb; rewrite EM; exact EF|exact V]|].
  destruct (C58_gps_values c adj mw m' s' C W' ES) as (VO & VC & VT & V1 & V2 & V3 & V4 & V5 & V6 & V7 & _).
  split; [intros; destruct (type_field _ 1019 _ _ BY D) as [LP TP]; unfold eph_rx; rewrite LP, TP; cbv zeta; change (1019 =? 1019) with true; cbv iota; rewrite D, ES; reflexivity|].
  split; [apply (orbit_back_ok 5 29 16 m' s s' VO ON OB)|]. split; [apply (clock_back_ok 31 43 55 m' s s' VC CN)|]. split; [apply (back_f 31 _ _ _ VT TN)|].
  assert (Q : e_toe m' = s_toc s / 16 /\ e_toc m' = s_toe s / 16 /\ e_sat m' = s_sat s /\ e_health m' = s_health s /\ e_iode m' = s_iode s /\ e_iodc m' = s_iodc s).
  { split; [exact P4|]. split; [exact P3|]. split; [exact P1|]. split; [exact P7|]. split; [exact P8|exact P9]. }
  destruct Q as (Q1 & Q2 & Q3 & Q4 & Q5 & Q6).
  split; [rewrite V1; exact Q3|]. split; [exact V2|]. split; [rewrite U; exact XU|]. split; [rewrite V7; exact Q4|]. split; [rewrite V5; exact Q5|]. split; [rewrite V6; exact Q6|].
  split; [intros Z; rewrite XF, P6, Z; reflexivity|]. split; [rewrite V3, Q1; lia|]. split; [exact XA|]. split; [rewrite V4, Q2; lia|exact XB].
Qed.
Print Assumptions C76_gps_received.
(** with equal reference times (the normal case), and a receiver that resolves the week correctly, the whole ephemeris arrives *)
Theorem C76_gps_partial : forall c adj mw eps log2f s n, consts_exact c -> eps_ok eps -> log2_ok log2f ->
  gps_representable s -> 0 <= n <= 15 -> s_ura s = ura_to_uri n -> s_toe s = s_toc s -> s_toe_wn s = s_toc_wn s ->
  mw (adj (s_toc_wn s mod 1024)) (s_toc s) = Some (s_toc_wn s) ->
  exists f s', sent (gps_eph_cb c eps log2f s) f /\
    (forall solved rover leap, eph_rx c adj mw solved rover leap (payload_of f) = [(61568, EGps s')]) /\
    orbit_received 5 29 s' s /\ clock_received 31 43 55 s' s /\ fhalf (unit2 31) (s_tgd0 s') (s_tgd0 s) /\ s_sat s' = s_sat s /\ s_ura s' = s_ura s /\
    s_health s' = s_health s /\ s_iode s' = s_iode s /\ s_iodc s' = s_iodc s /\ (s_fit s = 14400 -> s_fit s' = 14400) /\
    s_toe s' = s_toe s /\ s_toe_wn s' = s_toe_wn s /\ s_toc s' = s_toc s /\ s_toc_wn s' = s_toc_wn s.
Proof.
  intros c adj mw eps l s n C E L R N U T W M. assert (M' : mw (adj (s_toc_wn s mod 1024)) (s_toe s) = Some (s_toc_wn s)) by (rewrite T; exact M).
  destruct (C76_gps_received c adj mw eps l s n _ _ C E L R N U M M') as (f & s' & H1 & H2 & H3 & H4 & H5 & H6 & H7 & H8 & H9 & H10 & H11 & H12 & H13 & H14 & H15 & H16).
  exists f, s'. nxt. nxt. nxt. nxt. nxt. nxt. nxt. nxt. nxt. nxt. nxt. split; [congruence|]. split; [congruence|]. split; congruence.
Qed.
Print Assumptions C76_gps_partial.
(** finding: with different reference times the received ephemeris has them exchanged *)
Theorem C76_gps_reference_times_refuted : forall c adj mw eps log2f s n wa wb, consts_exact c -> eps_ok eps -> log2_ok log2f ->
  gps_representable s -> 0 <= n <= 15 -> s_ura s = ura_to_uri n -> s_toe s <> s_toc s ->
  mw (adj (s_toc_wn s mod 1024)) (s_toc s) = Some wa -> mw (adj (s_toc_wn s mod 1024)) (s_toe s) = Some wb ->
  exists f s', gps_eph_cb c eps log2f s = Ok f /\ (forall solved rover leap, eph_rx c adj mw solved rover leap (payload_of f) = [(61568, EGps s')]) /\ s_toe s' <> s_toe s.
Proof.
  intros c adj mw eps l s n wa wb C E L R N U T MA MB.
  destruct (C76_gps_received c adj mw eps l s n _ _ C E L R N U MA MB) as (f & s' & H1 & H2 & _ & _ & _ & _ & _ & _ & _ & _ & _ & _ & H13 & _).
  exists f, s'. split; [apply H1|]. split; [exact H2|congruence].
Qed.
Print Assumptions C76_gps_reference_times_refuted.

(** Galileo I/NAV.  [s_iode] is not sent; SBP's two issue-of-data fields are equal for Galileo *)
Theorem C76_inav_partial : forall c adj mw s n, consts_exact c -> gal_representable 32 s -> 0 <= n <= 125 -> s_ura s = sisa_to_meters n -> s_source s = 0 ->
  mw (adj (s_toe_wn s)) (s_toe s) = Some (s_toe_wn s) -> mw (adj (s_toe_wn s)) (s_toc s) = Some (s_toc_wn s) ->
  exists f s', sent (gal_eph_cb c s) f /\
    (forall solved rover leap, eph_rx c adj mw solved rover leap (payload_of f) = [(61568, EGal s')]) /\
    orbit_received 5 29 s' s /\ clock_received 34 46 59 s' s /\ fhalf (unit2 32) (s_tgd0 s') (s_tgd0 s) /\ fhalf (unit2 32) (s_tgd1 s') (s_tgd1 s) /\
    s_sat s' = s_sat s /\ s_ura s' = s_ura s /\ s_health s' = s_health s /\ s_iode s' = s_iodc s /\ s_iodc s' = s_iodc s /\ s_source s' = 0 /\
    s_toe s' = s_toe s /\ s_toe_wn s' = s_toe_wn s /\ s_toc s' = s_toc s /\ s_toc_wn s' = s_toc_wn s.
Proof.
  intros c adj mw s n C R N U S MA MB. assert (R' : gal_representable 64 s) by (unfold gal_representable in *; intuition lia).
  destruct (gal_out c s n C R' N U) as (m & EM & W & B1 & ON & OB & CN & TN & TN' & P1 & P2 & P3 & P4 & P5 & P6 & P7).
  destruct R as (_ & _ & _ & _ & _ & RH & _ & _ & _ & M1 & _ & M2).
  assert (D60 : s_toe s / 60 * 60 = s_toe s) by (pose proof (Z.div_mod (s_toe s) 60 ltac:(lia)); lia). assert (D60' : s_toc s / 60 * 60 = s_toc s) by (pose proof (Z.div_mod (s_toc s) 60 ltac:(lia)); lia).
  assert (WI : wf_inav m) by (split; [exact W|]; split; [exact B1|]; unfold ubits; rewrite P6; lia).
  destruct (framed _ _ _ _ (C15_1046_round_trip_partial m WI ltac:(rewrite P6; lia)) ltac:(lia)) as (f & EF & V & D & BY & _).
  assert (X : exists s', gal_eph_to_sbp c adj mw m 0 = Some s' /\ s_toe_wn s' = s_toe_wn s /\ s_toc_wn s' = s_toc_wn s /\ s_ura s' = sisa_to_meters n).
  { unfold gal_eph_to_sbp. rewrite P2, P3, P4, P5. replace (s_toe_wn s - 1024 + 1024) with (s_toe_wn s) by ring. rewrite D60, D60', MA, MB. eexists. split; [reflexivity|]. cbn [s_toe_wn s_toc_wn s_ura]. split; [reflexivity|]. split; reflexivity. }
  destruct X as (s' & ES & XA & XB & XU). exists f, s'.
  split; [apply sent_of; [unfold gal_eph_cb; rewrite EM, S; exact EF|exact V]|].
  destruct (C58_gal_values c adj mw m 0 s' C W B1 ES) as (VO & VC & VT & VT' & V1 & V2 & V3 & V4 & V5 & V6 & V7 & V8 & _).
  split; [intros; destruct (type_field _ 1046 _ _ BY D) as [LP TP]; unfold eph_rx; rewrite LP, TP; cbv zeta; change (1046 =? 1019) with false; change (1046 =? 1042) with false; change (1046 =? 1045) with false; change (1046 =? 1046) with true; cbv iota; rewrite D, ES; reflexivity|].
  split; [apply (orbit_back_ok 5 29 16 m s s' VO ON OB)|]. split; [apply (clock_back_ok 34 46 59 m s s' VC CN)|]. split; [apply (back_f 32 _ _ _ VT TN)|]. split; [apply (back_f 32 _ _ _ VT' TN')|].
  split; [congruence|]. split; [congruence|]. split; [congruence|]. split; [congruence|]. split; [congruence|]. split; [congruence|]. split; [rewrite V3, P3; lia|]. split; [congruence|]. split; [rewrite V4, P4; lia|congruence].
Qed.
Print Assumptions C76_inav_partial.
Definition no_tgd1 (m : keph) : keph :=
  mkkeph (e_sat m) (e_wn m) (e_toe m) (e_ura m) (e_fit m) (e_health m) (e_tgd0 m) 0 (e_crc m) (e_crs m) (e_cuc m) (e_cus m) (e_cic m) (e_cis m)
    (e_dn m) (e_m0 m) (e_ecc m) (e_sqrta m) (e_omega0 m) (e_omegadot m) (e_w m) (e_inc m) (e_inc_dot m) (e_af0 m) (e_af1 m) (e_af2 m) (e_toc m) (e_iodc m)
    (e_iode m) (e_codeL2 m) (e_L2_data_bit m).
Lemma fnav_out c s n : consts_exact c -> gal_representable 4 s -> 0 <= n <= 125 -> s_ura s = sisa_to_meters n -> s_source s = 1 ->
  exists m, gal_eph_cb c s = encode_rtcm3_frame (encode_fnav m) /\ wf_gal m /\ e_tgd1 m = 0 /\ orbit_nr 5 29 m s /\ orbit_bits 16 m /\ clock_nr 34 46 59 m s /\
    nr (e_tgd0 m) (unit2 32) (fv (s_tgd0 s)) /\
    e_sat m = s_sat s /\ e_wn m = s_toe_wn s - 1024 /\ e_toe m = s_toe s / 60 /\ e_toc m = s_toc s / 60 /\ e_ura m = n /\ e_health m = s_health s /\ e_iode m = s_iodc s.
Proof.
  intros C R N U S. assert (R' : gal_representable 64 s) by (unfold gal_representable in *; intuition lia).
  destruct (gal_out c s n C R' N U) as (m & EM & W & B1 & ON & OB & CN & TN & TN' & P1 & P2 & P3 & P4 & P5 & P6 & P7). exists (no_tgd1 m).
  assert (EQ : fields_fnav (no_tgd1 m) = fields_fnav m) by reflexivity.
  split; [unfold gal_eph_cb; rewrite EM, S; change (negb _) with false; change (1 =? 0) with false; cbv iota; unfold encode_fnav; rewrite EQ; reflexivity|]. clear EQ. destruct m. unfold no_tgd1 in *. unfold wf_gal, orbit_nr, orbit_bits, clock_nr in *. revert W ON OB CN TN P1 P2 P3 P4 P5 P6 P7. clear. kproj.
  intros W ON OB CN TN P1 P2 P3 P4 P5 P6 P7. repeat (split; [first [exact W | reflexivity | exact ON | exact OB | exact CN | exact TN | assumption]|]). assumption.
Qed.
(** Galileo F/NAV: the E1-E5b group delay has no field in 1045, it arrives as 0 *)
Theorem C76_fnav_partial : forall c adj mw s n, consts_exact c -> gal_representable 4 s -> 0 <= n <= 125 -> s_ura s = sisa_to_meters n -> s_source s = 1 ->
  mw (adj (s_toe_wn s)) (s_toe s) = Some (s_toe_wn s) -> mw (adj (s_toe_wn s)) (s_toc s) = Some (s_toc_wn s) ->
  exists f s', sent (gal_eph_cb c s) f /\
    (forall solved rover leap, eph_rx c adj mw solved rover leap (payload_of f) = [(61568, EGal s')]) /\
    orbit_received 5 29 s' s /\ clock_received 34 46 59 s' s /\ fhalf (unit2 32) (s_tgd0 s') (s_tgd0 s) /\ fexact (s_tgd1 s') 0 /\
    s_sat s' = s_sat s /\ s_ura s' = s_ura s /\ s_health s' = s_health s /\ s_iode s' = s_iodc s /\ s_iodc s' = s_iodc s /\ s_source s' = 1 /\
    s_toe s' = s_toe s /\ s_toe_wn s' = s_toe_wn s /\ s_toc s' = s_toc s /\ s_toc_wn s' = s_toc_wn s.
Proof.
  intros c adj mw s n C R N U S MA MB.
  destruct (fnav_out c s n C R N U S) as (m & EM & W & B0 & ON & OB & CN & TN & P1 & P2 & P3 & P4 & P5 & P6 & P7).
  destruct R as (_ & _ & _ & _ & _ & RH & _ & _ & _ & M1 & _ & M2).
  assert (D60 : s_toe s / 60 * 60 = s_toe s) by (pose proof (Z.div_mod (s_toe s) 60 ltac:(lia)); lia). assert (D60' : s_toc s / 60 * 60 = s_toc s) by (pose proof (Z.div_mod (s_toc s) 60 ltac:(lia)); lia).
  assert (B1 : sbits 10 (e_tgd1 m)) by (rewrite B0; unfold sbits; lia).
  assert (WI : wf_fnav m) by (split; [exact W|]; split; [exact B0|]; unfold ubits; rewrite P6; lia).
  destruct (framed _ _ _ _ (C15_1045_round_trip_partial m WI ltac:(rewrite P6; lia)) ltac:(lia)) as (f & EF & V & D & BY & _).
  assert (X : exists s', gal_eph_to_sbp c adj mw m 1 = Some s' /\ s_toe_wn s' = s_toe_wn s /\ s_toc_wn s' = s_toc_wn s /\ s_ura s' = sisa_to_meters n).
  { unfold gal_eph_to_sbp. rewrite P2, P3, P4, P5. replace (s_toe_wn s - 1024 + 1024) with (s_toe_wn s) by ring. rewrite D60, D60', MA, MB. eexists. split; [reflexivity|]. cbn [s_toe_wn s_toc_wn s_ura]. split; [reflexivity|]. split; reflexivity. }
  destruct X as (s' & ES & XA & XB & XU). exists f, s'.
  split; [apply sent_of; [rewrite EM; exact EF|exact V]|].
  destruct (C58_gal_values c adj mw m 1 s' C W B1 ES) as (VO & VC & VT & VT' & V1 & V2 & V3 & V4 & V5 & V6 & V7 & V8 & _).
  split; [intros; destruct (type_field _ 1045 _ _ BY D) as [LP TP]; unfold eph_rx; rewrite LP, TP; cbv zeta; change (1045 =? 1019) with false; change (1045 =? 1042) with false; change (1045 =? 1045) with true; cbv iota; rewrite D, ES; reflexivity|].
  split; [apply (orbit_back_ok 5 29 16 m s s' VO ON OB)|]. split; [apply (clock_back_ok 34 46 59 m s s' VC CN)|]. split; [apply (back_f 32 _ _ _ VT TN)|].
  split; [destruct VT' as [F1 F2]; split; [exact F1|rewrite F2, B0; unfold scaled; ring]|].
  split; [congruence|]. split; [congruence|]. split; [congruence|]. split; [congruence|]. split; [congruence|]. split; [congruence|]. split; [rewrite V3, P3; lia|]. split; [congruence|]. split; [rewrite V4, P4; lia|congruence].
Qed.
Print Assumptions C76_fnav_partial.
(** finding: a Galileo ephemeris with another source value aborts the converter (assertion) *)
Theorem C76_gal_source_refuted : forall c s, s_source s <> 0 -> s_source s <> 1 -> gal_eph_cb c s = Ub.
Proof.
  intros c s H0 H1. unfold gal_eph_cb. destruct (sbp_to_gal_eph c s); [|reflexivity]. apply Z.eqb_neq in H0. apply Z.eqb_neq in H1. rewrite H0, H1. reflexivity.
Qed.
Print Assumptions C76_gal_source_refuted.

(** BeiDou, provided gps_adjust_week_cycle leaves present and future weeks alone *)
Theorem C76_bds_partial : forall c adj mw eps log2f s n, consts_exact c -> eps_ok eps -> log2_ok log2f -> bds_representable s -> 0 <= n <= 15 -> s_ura s = bds_ura_to_meters n ->
  (forall w, s_toc_wn s <= w -> adj w = w) ->
  exists f s', sent (bds_eph_cb c eps log2f s) f /\
    (forall solved rover leap, eph_rx c adj mw solved rover leap (payload_of f) = [(61568, EBds s')]) /\
    orbit_received 6 31 s' s /\ clock_received 33 50 66 s' s /\ fhalf tenth_ns (s_tgd0 s') (s_tgd0 s) /\ fhalf tenth_ns (s_tgd1 s') (s_tgd1 s) /\
    s_sat s' = s_sat s /\ s_ura s' = s_ura s /\ s_health s' = s_health s /\ s_iode s' = s_iode s /\ s_iodc s' = s_iodc s /\ s_fit s' = 10800 /\
    s_toe s' = s_toe s /\ s_toe_wn s' = s_toe_wn s /\ s_toc s' = s_toc s /\ s_toc_wn s' = s_toc_wn s.
Proof.
  intros c adj mw eps l s n C E L R N U A.
  destruct (bds_out c eps l s n C E L R N U) as (m & EM & W & ON & OB & CN & TN & TN' & TB & TB' & P1 & P2 & P3 & P4 & P5 & P6 & P7 & P8).
  destruct R as (_ & _ & _ & _ & R1 & _ & _ & _ & R5 & R6 & R7 & R8 & R9 & R10).
  assert (D8 : (s_toe s - 14) / 8 * 8 = s_toe s - 14) by (pose proof (Z.div_mod (s_toe s - 14) 8 ltac:(lia)); lia). assert (D8' : (s_toc s - 14) / 8 * 8 = s_toc s - 14) by (pose proof (Z.div_mod (s_toc s - 14) 8 ltac:(lia)); lia).
  destruct (framed _ _ _ _ (C15_1042_round_trip m W ltac:(lia)) ltac:(lia)) as (f & EF & V & D & BY & _).
  exists f, (bds_eph_to_sbp c adj m). split; [apply sent_of; [unfold bds_eph_cb; rewrite EM; exact EF|exact V]|].
  assert (A' : forall w, e_wn m + 1356 <= w -> adj w = w) by (intros w Hw; apply A; lia).
  assert (XU : s_ura (bds_eph_to_sbp c adj m) = bds_ura_to_meters n) by (unfold bds_eph_to_sbp; rewrite P5; destruct (time_from_bds _ (e_toe m) _); destruct (time_from_bds _ (e_toc m) _); reflexivity).
  destruct (C58_bds_values c adj m C W A') as (VO & VC & VT & VT' & V1 & V2 & V3 & V4 & V5 & V6 & V7 & V8 & V9 & V10).
  split; [intros; destruct (type_field _ 1042 _ _ BY D) as [LP TP]; unfold eph_rx; rewrite LP, TP; cbv zeta; change (1042 =? 1019) with false; change (1042 =? 1042) with true; cbv iota; rewrite D; reflexivity|].
  set (s' := bds_eph_to_sbp c adj m) in *. clearbody s'.
  split; [apply (orbit_back_ok 6 31 18 m s s' VO ON OB)|]. split; [apply (clock_back_ok 33 50 66 m s s' VC CN)|]. split; [apply (back_ns _ _ _ VT TB TN)|]. split; [apply (back_ns _ _ _ VT' TB' TN')|].
  split; [congruence|]. split; [congruence|]. split; [congruence|]. split; [congruence|]. split; [congruence|]. split; [exact V6|].
  assert (s_toe_wn s' * 604800 + s_toe s' = s_toe_wn s * 604800 + s_toe s) by lia. assert (s_toc_wn s' * 604800 + s_toc s' = s_toc_wn s * 604800 + s_toc s) by lia. lia.
Qed.
Print Assumptions C76_bds_partial.

(** GLONASS, when both sides know the leap seconds and the receiver's time is within half a day of the reference time *)
Theorem C76_glo_partial : forall c adj mw eps log2f s n rover leap junk, consts_exact c -> eps_ok eps -> 0 <= leap <= 3600 -> glo_representable leap s -> 0 <= n <= 15 -> sg_ura s = glo_ft_to_meters n ->
  known_time rover -> inner_week rover -> 2 * Z.abs (sg_toe_wn s * 604800000 + sg_toe s * 1000 - ms_of rover) < 86400000 ->
  exists f s', sent (glo_eph_cb c eps log2f s (Some leap) junk) f /\
    eph_rx c adj mw true rover (Some leap) (payload_of f) = [(61568, EGlo s')] /\
    glo_received s' s /\ sg_sat s' = sg_sat s /\ sg_fcn s' = sg_fcn s /\ sg_ura s' = sg_ura s /\ sg_health s' = sg_health s /\ sg_toe_wn s' = sg_toe_wn s /\ sg_toe s' = sg_toe s /\
    (In (sg_fit s) [2400; 3300; 4200] -> sg_fit s' = sg_fit s).
Proof.
  intros c adj mw eps l s n rover leap junk C E LP R N U KT IW CL.
  destruct (glo_out c eps l s n leap junk C E LP R N U) as (m & EM & W & GN & P1 & P2 & P3 & P4 & P5 & P6 & P7).
  destruct (framed _ _ _ _ (rt_glo m W) ltac:(lia)) as (f & EF & V & D & BY & _).
  assert (X : exists s', glo_eph_to_sbp c m rover (Some leap) = Some s' /\ sg_ura s' = glo_ft_to_meters (g_ura m) /\ sg_fit s' = decode_fit_interval_glo (g_fit m)).
  { destruct (C21_glo_time_nearest (g_t_b m * 15 * 60 * 1000) rover leap ltac:(lia) KT IW LP) as (t & ET & KT' & _ & _). unfold glo_eph_to_sbp. rewrite ET. destruct KT' as [K1 K2].
    destruct (Z.eqb_spec (wn t) (-1)); [lia|]. destruct (Z.eqb_spec (g_sat m) 0) as [Z|]; [destruct R as (_ & _ & _ & _ & _ & _ & _ & _ & _ & _ & _ & _ & R1 & _); lia|]. eexists. split; [reflexivity|]. split; reflexivity. }
  destruct X as (s' & ES & XU & XF). exists f, s'.
  split; [apply sent_of; [unfold glo_eph_cb; rewrite EM; exact EF|exact V]|].
  destruct (C58_glo_values c m rover leap s' C W KT IW LP ltac:(lia) ES) as (V1 & V2 & V3 & V4 & V5 & V6 & V7 & V8 & V9 & V10 & V11 & V12 & V13 & V14 & V15 & V16 & V17 & V18 & V19 & V20).
  split; [destruct (type_field _ 1020 _ _ BY D) as [LL TP]; unfold eph_rx; rewrite LL, TP; cbv zeta; change (1020 =? 1019) with false; change (1020 =? 1042) with false; change (1020 =? 1045) with false; change (1020 =? 1046) with false; change (1020 =? 1020) with true; cbv iota; cbn [negb]; rewrite D, ES; reflexivity|].
  destruct GN as (G1 & G2 & G3 & G4 & G5 & G6 & G7 & G8 & G9 & G10 & G11 & G12).
  split.
  { unfold glo_received, fhalf, dhalf. split; [eapply back_f; eassumption|]. split; [eapply back_f; eassumption|]. split; [eapply back_f; eassumption|].
    split; [eapply back_km; eassumption|]. split; [eapply back_km; eassumption|]. split; [eapply back_km; eassumption|]. split; [eapply back_km; eassumption|]. split; [eapply back_km; eassumption|]. split; [eapply back_km; eassumption|].
    split; [eapply back_fkm; eassumption|]. split; [eapply back_fkm; eassumption|eapply back_fkm; eassumption]. }
  split; [congruence|]. split; [lia|]. split; [congruence|]. split; [congruence|].
  assert (T : sg_toe_wn s' = sg_toe_wn s /\ sg_toe s' = sg_toe s).
  { destruct R as (_ & _ & _ & _ & _ & _ & _ & _ & _ & _ & _ & _ & _ & _ & _ & RT & RM & _). unfold glo_instant in V19.
    assert (I : exists q, sg_toe_wn s * 604800000 + sg_toe s * 1000 + 10800000 - leap * 1000 - g_t_b m * 900000 = q * 86400000).
    { rewrite P6. pose proof (Z.div_mod (sg_toe s + 10800 - leap) 86400 ltac:(lia)) as DM. exists (sg_toe_wn s * 7 + (sg_toe s + 10800 - leap) / 86400).
      assert (K : (sg_toe s + 10800 - leap) mod 86400 / 900 * 900 = (sg_toe s + 10800 - leap) mod 86400); [|lia].
      apply Z.mod_divide in RM; [|lia]. destruct RM as [a RM]. rewrite RM. replace 86400 with (96 * 900) by reflexivity. rewrite Zmult_mod_distr_r, Z.div_mul by lia. reflexivity. }
    destruct I as [q I]. apply Z.mod_divide in V19; [|lia]. destruct V19 as [q' V19]. lia. }
  destruct T as [T1 T2]. split; [exact T1|]. split; [exact T2|]. intros [Z | [Z | [Z | []]]]; rewrite XF, P3, <- Z; reflexivity.
Qed.
Print Assumptions C76_glo_partial.

(** ** relay: an ephemeris received over RTCM, converted to SBP and sent over RTCM again, is the same message.
    [p] is the payload of the received frame; [m] what a standard decoder reads in it. *)
Theorem C76_gps_relay_partial : forall c adj mw eps log2f p m s, consts_ok c -> eps_ok eps -> log2_ok log2f ->
  run_dec decode_gps p = Ok m -> gps_eph_to_sbp c adj mw m = Some s -> s_toc_wn s mod 1024 = e_wn m ->
  exists f, sent (gps_eph_cb c eps log2f s) f /\ run_dec decode_gps (payload_of f) = Ok (swap_toe_toc (with_l2_defaults m)).
Proof.
  intros c adj mw eps l p m s C E L D H K. apply accepted_gps in D. pose proof (C57_gps_round_trip_partial c adj mw eps l m s C E L D H K) as R.
  assert (W : wf_gps (with_l2_defaults m)). { destruct D as (B1 & B2 & B3 & B4 & D). unfold wf_gps, with_l2_defaults. kproj. split; [exact B1|]. split; [exact B2|]. split; [exact B3|]. split; [unfold ubits; lia|]. exact D. }
  destruct (framed _ _ _ _ (rt_gps _ W) ltac:(lia)) as (f & EF & V & DF & _). exists f. split; [|exact DF]. apply sent_of; [|exact V]. unfold gps_eph_cb. rewrite R. exact EF.
Qed.
Print Assumptions C76_gps_relay_partial.
Lemma gal_source c adj mw m src s : gal_eph_to_sbp c adj mw m src = Some s -> s_source s = src.
Proof.
  unfold gal_eph_to_sbp. destruct (mw (adj (e_wn m + 1024)) (e_toe m * 60)); [|discriminate]. destruct (mw (adj (e_wn m + 1024)) (e_toc m * 60)); [|discriminate]. intros H. apply Some_inj' in H. rewrite <- H. reflexivity.
Qed.
Theorem C76_inav_relay_partial : forall c adj mw p m s, consts_ok c -> run_dec decode_inav p = Ok m -> e_health m < 32 -> e_ura m <= 125 \/ e_ura m = 255 ->
  gal_eph_to_sbp c adj mw m 0 = Some s -> s_toe_wn s = e_wn m + 1024 ->
  exists f, sent (gal_eph_cb c s) f /\ run_dec decode_inav (payload_of f) = Ok m.
Proof.
  intros c adj mw p m s C D B U H K. apply accepted_inav in D. destruct D as (D & T & B0). pose proof (C57_gal_round_trip_partial c adj mw m 0 s C D T U H K) as R.
  assert (W : wf_inav m) by (split; [exact D|]; split; [exact T|unfold ubits; lia]).
  destruct (framed _ _ _ _ (C15_1046_round_trip_partial _ W B) ltac:(lia)) as (f & EF & V & DF & _). exists f. split; [|exact DF]. apply sent_of; [|exact V]. unfold gal_eph_cb. rewrite R.
  rewrite (gal_source _ _ _ _ _ _ H). cbn [Z.eqb orb negb]. exact EF.
Qed.
Print Assumptions C76_inav_relay_partial.
Theorem C76_fnav_relay_partial : forall c adj mw p m s, consts_ok c -> run_dec decode_fnav p = Ok m -> e_health m < 4 -> e_ura m <= 125 \/ e_ura m = 255 ->
  gal_eph_to_sbp c adj mw m 1 = Some s -> s_toe_wn s = e_wn m + 1024 ->
  exists f, sent (gal_eph_cb c s) f /\ run_dec decode_fnav (payload_of f) = Ok m.
Proof.
  intros c adj mw p m s C D B U H K. apply accepted_fnav in D. destruct D as (D & T & B0). assert (T' : sbits 10 (e_tgd1 m)) by (rewrite T; unfold sbits; lia).
  pose proof (C57_gal_round_trip_partial c adj mw m 1 s C D T' U H K) as R.
  assert (W : wf_fnav m) by (split; [exact D|]; split; [exact T|unfold ubits; lia]).
  destruct (framed _ _ _ _ (C15_1045_round_trip_partial _ W B) ltac:(lia)) as (f & EF & V & DF & _). exists f. split; [|exact DF]. apply sent_of; [|exact V]. unfold gal_eph_cb. rewrite R.
  rewrite (gal_source _ _ _ _ _ _ H). cbn [Z.eqb orb negb]. exact EF.
Qed.
Print Assumptions C76_fnav_relay_partial.
Theorem C76_bds_relay_partial : forall c adj eps log2f p m, consts_ok c -> eps_ok eps -> log2_ok log2f -> run_dec decode_bds p = Ok m ->
  0 < e_toe m < 75600 -> 0 < e_toc m < 75600 -> adj (e_wn m + 1356) = e_wn m + 1356 -> adj (e_wn m + 1357) = e_wn m + 1357 ->
  exists f, sent (bds_eph_cb c eps log2f (bds_eph_to_sbp c adj m)) f /\ run_dec decode_bds (payload_of f) = Ok m.
Proof.
  intros c adj eps l p m C E L D TE TC A0 A1. apply accepted_bds in D. destruct D as (W & S). pose proof (C57_bds_round_trip_partial c adj eps l m C E L W TE TC A0 A1) as R.
  destruct (framed _ _ _ _ (rt_bds _ W S) ltac:(lia)) as (f & EF & V & DF & _). exists f. split; [|exact DF]. apply sent_of; [|exact V]. unfold bds_eph_cb. rewrite R. exact EF.
Qed.
Print Assumptions C76_bds_relay_partial.
Theorem C76_glo_relay_partial : forall c eps log2f p m rover leap junk s, consts_ok c -> eps_ok eps -> run_dec decode_glo p = Ok m -> g_fit m <> 3 -> 1 <= g_t_b m <= 95 ->
  known_time rover -> inner_week rover -> 0 <= leap <= 3600 -> glo_eph_to_sbp c m rover (Some leap) = Some s ->
  exists f, sent (glo_eph_cb c eps log2f s (Some leap) junk) f /\ run_dec decode_glo (payload_of f) = Ok m.
Proof.
  intros c eps l p m rover leap junk s C E D F T KT IW LP H. apply accepted_glo in D. pose proof (C57_glo_round_trip_partial c eps l m rover leap junk s C E D F T KT IW LP H) as R.
  destruct (framed _ _ _ _ (rt_glo _ D) ltac:(lia)) as (f & EF & V & DF & _). exists f. split; [|exact DF]. apply sent_of; [|exact V]. unfold glo_eph_cb. rewrite R. exact EF.
Qed.
Print Assumptions C76_glo_relay_partial.

(** ** the hypotheses are met *)
Definition gps_msg : keph := mkkeph 7 227 1350 2 0 0 (-5) 0 9271 (-1234) (-777) 12000 15 (-16) 11111 (-2000000000) 4000000000 2702000000 1999999999 (-23456) (-1) 666666666 (-8190) (-2097152) 32767 (-128) 1350 54 54 1 false.
Definition some_week : Z -> Z -> option Z := fun _ _ => Some 2275.
Example C76_gps_example : exists s, gps_eph_to_sbp two_pow (fun w => w) some_week gps_msg = Some s /\ gps_representable s /\ s_ura s = ura_to_uri 2 /\ s_toe s = s_toc s /\ s_toe_wn s = s_toc_wn s /\
  some_week (s_toc_wn s mod 1024) (s_toc s) = Some (s_toc_wn s).
Proof.
  eexists. split; [reflexivity|]. split; [|split; [reflexivity|]; split; [reflexivity|]; split; reflexivity].
  eapply (gps_values_fit two_pow (fun w => w) some_week gps_msg); [apply two_pow_exact|unfold wf_gps, ubits, sbits; cbn; repeat split; lia|unfold inner_angles, inner; cbn; repeat split; lia|cbn; lia|cbn; lia|reflexivity].
Qed.
Definition gal_msg : keph := mkkeph 36 1250 10079 125 0 21 (-512) 511 (-32768) 32767 (-777) 12000 15 (-16) 11111 (-2000000000) 4000000000 2852000000 1999999999 (-8388606) (-1) 666666666 (-8190) (-1073741824) 1048575 (-32) 10079 0 1023 0 false.
Example C76_inav_example : exists s, gal_eph_to_sbp two_pow (fun w => w) (fun w _ => Some w) gal_msg 0 = Some s /\ gal_representable 32 s /\ s_ura s = sisa_to_meters 125 /\ s_source s = 0 /\ s_toe_wn s = 2274 /\ s_toc_wn s = 2274.
Proof.
  eexists. split; [reflexivity|]. split; [|split; [reflexivity|]; split; [reflexivity|]; split; reflexivity].
  eapply (gal_values_fit two_pow (fun w => w) (fun w _ => Some w) gal_msg 0); [apply two_pow_exact|unfold wf_gal, ubits, sbits; cbn; repeat split; lia|unfold sbits; cbn; lia|cbn; lia|unfold inner_angles, inner; cbn; repeat split; lia|cbn; lia|cbn; lia|reflexivity|reflexivity].
Qed.

(** ** findings *)
Definition clock_msg (a : Z) : keph := mkkeph 7 227 1350 2 0 0 (-5) 0 9271 (-1234) (-777) 12000 15 (-16) 11111 (-2000000000) 4000000000 2702000000 1999999999 (-23456) (-1) 666666666 (-8190) a 32767 (-128) 1350 54 54 1 false.
Definition late_clock : skeph := match gps_eph_to_sbp two_pow (fun w => w) some_week (clock_msg 2097152) with Some s => s | None => mkskeph 0 0 0 0 (f32 (dofZ 0)) 0 false 0 (f32 (dofZ 0)) (f32 (dofZ 0)) (f32 (dofZ 0)) (f32 (dofZ 0)) (f32 (dofZ 0)) (f32 (dofZ 0)) (f32 (dofZ 0)) (f32 (dofZ 0)) (dofZ 0) (dofZ 0) (dofZ 0) (dofZ 0) (dofZ 0) (dofZ 0) (dofZ 0) (dofZ 0) (dofZ 0) (dofZ 0) (dofZ 0) (f32 (dofZ 0)) 0 0 0 0 0 end.
Lemma qf_late : dv (dofflt (qf two_pow 31 2097152)) = (/ 1024)%R /\ is_finite 53 1024 (dofflt (qf two_pow 31 2097152)) = true.
Proof. destruct (dofflt_dexact _ _ (qf_exact two_pow two_pow_exact 31 2097152 ltac:(lia) ltac:(lia))) as [F V]. split; [|exact F]. unfold dv. rewrite V. unfold scaled. change (bpow radix2 (- (31))) with (/ 2147483648)%R. lra. Qed.
Lemma late_out eps l : eps_ok eps -> log2_ok l -> sbp_to_gps_eph two_pow eps l late_clock = Some (clock_msg 2097152).
Proof.
  intros E L. destruct (C26_gps_ura_exact eps l 2 E L ltac:(lia)) as [U _]. unfold sbp_to_gps_eph. change (s_ura late_clock) with (ura_to_uri 2). rewrite U. vm_compute. reflexivity.
Qed.
(** finding: a clock correction too large for the field is not rejected, it changes sign: 0.98 ms becomes -0.98 ms *)
Theorem C76_gps_clock_overflow_refuted : forall eps log2f, eps_ok eps -> log2_ok log2f ->
  dv (s_af0 late_clock) = (/ 1024)%R /\
  exists f s', sent (gps_eph_cb two_pow eps log2f late_clock) f /\
    (forall solved rover leap, eph_rx two_pow (fun w => w) some_week solved rover leap (payload_of f) = [(61568, EGps s')]) /\ dv (s_af0 s') = (- / 1024)%R.
Proof.
  intros eps l E L. split; [exact (proj1 qf_late)|].
  assert (W : wf_gps (clock_msg (-2097152))) by (unfold wf_gps, ubits, sbits; cbn; repeat split; lia).
  destruct (framed _ _ _ _ (rt_gps _ W) ltac:(lia)) as (f & EF & V & D & BY & _).
  assert (Q : encode_rtcm3_frame (encode_gps (clock_msg 2097152)) = encode_rtcm3_frame (encode_gps (clock_msg (-2097152)))) by (vm_compute; reflexivity).
  change (swap_toe_toc (clock_msg (-2097152))) with (clock_msg (-2097152)) in D.
  destruct (gps_eph_to_sbp two_pow (fun w => w) some_week (clock_msg (-2097152))) as [s'|] eqn:ES; [|discriminate].
  exists f, s'. split; [apply sent_of; [unfold gps_eph_cb; rewrite (late_out eps l E L), Q; exact EF|exact V]|].
  split; [intros; destruct (type_field _ 1019 _ _ BY D) as [LP TP]; unfold eph_rx; rewrite LP, TP; cbv zeta; change (1019 =? 1019) with true; cbv iota; rewrite D, ES; reflexivity|].
  destruct (C58_gps_values _ _ _ _ _ two_pow_exact W ES) as (_ & (V0 & _) & _). destruct V0 as [_ V0]. unfold dv. rewrite V0. unfold scaled, clock_msg. cbn [e_af0]. change (bpow radix2 (- (31))) with (/ 2147483648)%R. lra.
Qed.
Print Assumptions C76_gps_clock_overflow_refuted.
(** finding: when the leap seconds are not known, a healthy GLONASS satellite is announced unhealthy, with a reference time that is whatever the memory held *)
Theorem C76_glo_unknown_leap_refuted : forall c eps log2f s n leap junk, consts_exact c -> eps_ok eps -> 0 <= leap <= 3600 -> glo_representable leap s -> 0 <= n <= 15 -> sg_ura s = glo_ft_to_meters n ->
  sg_health s = 0 -> 0 <= junk < 128 ->
  exists f m, sent (glo_eph_cb c eps log2f s None junk) f /\ run_dec decode_glo (payload_of f) = Ok m /\ g_t_b m = junk /\ g_health m = 1.
Proof.
  intros c eps l s n leap junk C E LP R N U H J.
  destruct (glo_out c eps l s n leap 0 C E LP R N U) as (m & EM & W & _). apply (glo_out_unknown _ _ _ _ _ _ junk) in EM.
  match type of EM with _ = Some ?x => set (m' := x) in * end.
  assert (W' : wf_glo m').
  { unfold m', wf_glo in *. cbn [g_sat g_ura g_fit g_health g_gamma g_tau g_d_tau g_t_b g_pos0 g_pos1 g_pos2 g_vel0 g_vel1 g_vel2 g_acc0 g_acc1 g_acc2 g_fcn]. destruct W as (B1 & B2 & B3 & B4 & B5 & B6).
    split; [exact B1|]. split; [exact B2|]. split; [exact B3|]. split; [unfold ubits; lia|]. split; [unfold ubits; lia|]. exact B6. }
  destruct (framed _ _ _ _ (rt_glo _ W') ltac:(lia)) as (f & EF & V & D & _). exists f, m'. split; [apply sent_of; [unfold glo_eph_cb; rewrite EM; exact EF|exact V]|].
  split; [exact D|]. split; reflexivity.
Qed.
Print Assumptions C76_glo_unknown_leap_refuted.
Definition bds_msg : keph := mkkeph 37 890 75000 15 0 1 (-510) 510 (-131072) 131071 (-777) 12000 15 (-16) 11111 (-2000000000) 4000000000 2852000000 1999999999 (-8388606) (-1) 666666666 (-8190) (-8388608) 2097151 (-1024) 1 31 30 0 false.
Example C76_bds_example : let s := bds_eph_to_sbp two_pow (fun w => w) bds_msg in bds_representable s /\ s_ura s = bds_ura_to_meters 15.
Proof.
  cbv zeta. split; [|reflexivity]. apply bds_values_fit; [apply two_pow_exact|unfold wf_bds, ubits, sbits; cbn; repeat split; lia|cbn; lia|unfold inner_angles, inner; cbn; repeat split; lia|unfold inner; cbn; lia|unfold inner; cbn; lia|cbn; lia|cbn; lia|cbn; lia|cbn; lia|reflexivity].
Qed.
Definition glo_msg : geph := mkgeph 24 15 2 0 (-1023) 2097151 (-15) 94 67108863 (-67108863) 1 8388607 (-8388607) (-1) 15 (-15) 1 13.
Example C76_glo_example : let rover := mkt 2275 172800000 in known_time rover /\ inner_week rover /\ exists s, glo_eph_to_sbp two_pow glo_msg rover (Some 18) = Some s /\ glo_representable 18 s /\ sg_ura s = glo_ft_to_meters 15 /\ sg_health s = 0 /\
  2 * Z.abs (sg_toe_wn s * 604800000 + sg_toe s * 1000 - ms_of rover) < 86400000.
Proof.
  cbv zeta. split; [unfold known_time; cbn; lia|]. split; [unfold inner_week; cbn; lia|].
  eexists. split; [reflexivity|].
  split; [eapply (glo_values_fit two_pow glo_msg (mkt 2275 172800000) 18); [apply two_pow_exact|unfold wf_glo, ubits, smag; cbn; repeat split; lia|unfold known_time; cbn; lia|unfold inner_week; cbn; lia|lia|cbn; lia|reflexivity]|].
  split; [reflexivity|]. split; [reflexivity|]. cbn [sg_toe sg_toe_wn]. vm_compute. reflexivity.
Qed.
