(** C77: RTCM messages are read from, and written to, the bit positions the standard gives their data fields. *)
From Verif Require Import Base Bitstring Bits_model Bits_proofs Bitstream_model Bitstream_proofs RtcmStation_model RtcmStation_spec RtcmStation_proofs RtcmEph_model RtcmEph_spec RtcmEph_proofs RtcmLegacy_model RtcmLegacy_spec
  RtcmLayout_spec RtcmLayout_proofs Properties_eph Properties_legacy.
Open Scope Z_scope.

(** ** reading: what the decoder answers to any payload whatsoever *)
Theorem C77_1019_read : forall p, let bs := bits_of_bytes p in run_dec decode_gps p = verdict 1019 (bits_of t1019) bs (Ok (gps_of bs)).
Proof. exact gps_at. Qed.
Print Assumptions C77_1019_read.
Theorem C77_1044_read : forall p, let bs := bits_of_bytes p in run_dec decode_qzss p = verdict 1044 (bits_of t1044) bs (Ok (qzss_of bs)).
Proof. exact qzss_at. Qed.
Print Assumptions C77_1044_read.
(** satellites 1 to 5 (geostationary) are refused *)
Theorem C77_1042_read : forall p, let bs := bits_of_bytes p in
  run_dec decode_bds p = verdict 1042 (bits_of t1042) bs (if U t1042 bs 488 <=? 5 then Invalid else Ok (bds_of bs)).
Proof. exact bds_at. Qed.
Print Assumptions C77_1042_read.
(** the additional data of 1020 (78 bits) are needed only when DF131 announces them; trailing reserved bits are not needed *)
Theorem C77_1020_read : forall p, let bs := bits_of_bytes p in
  run_dec decode_glo p = verdict 1020 (if U t1020 bs 131 =? 1 then bits_of t1020 - 7 else bits_of t1020 - 78) bs (Ok (glo_of bs)).
Proof. exact glo_at. Qed.
Print Assumptions C77_1020_read.
(** Galileo: as long as the first bit of the health field is clear *)
Lemma s_small bs o w : 0 < w <= 8 -> uat bs o w < 2 ^ (w - 1) -> s_at bs o w mod 256 = uat bs o w.
Proof.
  intros Hw L. unfold s_at. cbv zeta. pose proof (uat_nonneg bs o w). destruct (Z.ltb_spec (uat bs o w) (2 ^ (w - 1))); [| lia]. apply Z.mod_small.
  assert (2 ^ (w - 1) <= 2 ^ 8) by (apply Z.pow_le_mono_r; lia). change (2 ^ 8) with 256 in *. lia.
Qed.
Theorem C77_1046_read_partial : forall p, let bs := bits_of_bytes p in U t1046 bs 316 < 32 ->
  run_dec decode_inav p = verdict 1046 (bits_of t1046 - 2) bs (Ok (gal_of t1046 bs (Sg t1046 bs 313) (U t1046 bs 316))).
Proof.
  intros p bs H. rewrite (inav_at p). fold bs. change (Sg t1046 bs 316) with (s_at bs 496 6). change (U t1046 bs 316) with (uat bs 496 6) in *.
  rewrite s_small; [reflexivity | lia | exact H].
Qed.
Print Assumptions C77_1046_read_partial.
Theorem C77_1045_read_partial : forall p, let bs := bits_of_bytes p in U t1045 bs 314 < 4 ->
  run_dec decode_fnav p = verdict 1045 (bits_of t1045 - 7) bs (Ok (gal_of t1045 bs 0 (U t1045 bs 314))).
Proof.
  intros p bs H. rewrite (fnav_at p). fold bs. change (Sg t1045 bs 314) with (s_at bs 486 3). change (U t1045 bs 314) with (uat bs 486 3) in *.
  rewrite s_small; [reflexivity | lia | exact H].
Qed.
Print Assumptions C77_1045_read_partial.
(** ... and otherwise the health octet is not the field: 1046 with health bits 100000 is reported as 224 *)
Theorem C77_1046_health_refuted : exists p m, let bs := bits_of_bytes p in
  bits_of t1046 <= len bs /\ U t1046 bs 2 = 1046 /\ U t1046 bs 316 = 32 /\ run_dec decode_inav p = Ok m /\ e_health m = 224.
Proof.
  exists (fst (encode_inav (sample_gal 32 5) (repeat 0 63))), (set_health (sample_gal 32 5) 224).
  split; [vm_compute; discriminate |]. split; [vm_compute; reflexivity |]. split; [vm_compute; reflexivity |]. split; vm_compute; reflexivity.
Qed.
Print Assumptions C77_1046_health_refuted.
Theorem C77_1005_read : forall p, let bs := bits_of_bytes p in run_dec decode_1005 p = verdict 1005 (bits_of t1005) bs (Ok (m1005_of t1005 bs)).
Proof. exact m1005_at. Qed.
Print Assumptions C77_1005_read.
(** [g]: what the caller's struct held *)
Theorem C77_1006_read_partial : forall g p, let bs := bits_of_bytes p in bits_of t1006 <= len bs -> U t1006 bs 2 = 1006 ->
  run_dec (decode_1006 g) p = Ok (mk1006 (m1005_of t1006 bs) (U t1006 bs 28)).
Proof. exact m1006_at. Qed.
Print Assumptions C77_1006_read_partial.
(** a 1006 cut short inside a coordinate is accepted, with nothing of the message in the result but a height read from the coordinate's bits *)
Theorem C77_1006_short_refuted : exists p, len (bits_of_bytes p) < bits_of t1006 /\ forall g, exists h, run_dec (decode_1006 g) p = Ok (mk1006 g h).
Proof. exists [0x3E; 0xE0; 0; 0; 0; 0; 0; 0]. split; [vm_compute; reflexivity |]. intro g. eexists. vm_compute. reflexivity. Qed.
Print Assumptions C77_1006_short_refuted.
Theorem C77_1007_read : forall p, let bs := bits_of_bytes p in
  run_dec decode_1007 p = verdict 1007 (end_1007 bs) bs (if short bs [24] then Ok (m1007_of bs) else Invalid).
Proof. exact m1007_at. Qed.
Print Assumptions C77_1007_read.
Theorem C77_1008_read : forall p, let bs := bits_of_bytes p in
  run_dec decode_1008 p = verdict 1008 (end_1008 bs) bs (if short bs [24; end_1007 bs] then Ok (m1008_of bs) else Invalid).
Proof. exact m1008_at. Qed.
Print Assumptions C77_1008_read.
Theorem C77_1033_read : forall p, let bs := bits_of_bytes p in
  run_dec decode_1033 p = verdict 1033 (end_1033 bs) bs (if short bs [24; end_1007 bs; at_rcv bs; at_fw bs; at_ser bs] then Ok (m1033_of bs) else Invalid).
Proof. exact m1033_at. Qed.
Print Assumptions C77_1033_read.
Theorem C77_1029_read : forall p, let bs := bits_of_bytes p in
  run_dec decode_1029 p = verdict 1029 (bits_of t1029 + 8 * U t1029 bs 139) bs (Ok (m1029_of bs)).
Proof. exact m1029_at. Qed.
Print Assumptions C77_1029_read.
Theorem C77_1230_read : forall p, let bs := bits_of_bytes p in
  run_dec decode_1230 p = verdict 1230 (32 + 16 * (uat bs 28 1 + uat bs 29 1 + uat bs 30 1 + uat bs 31 1)) bs (Ok (m1230_of bs)).
Proof. exact m1230_at. Qed.
Print Assumptions C77_1230_read.
Theorem C77_4062_read : forall p, let bs := bits_of_bytes p in
  run_dec decode_4062 p = verdict 4062 (56 + 8 * uat bs 48 8) bs (if uat bs 12 4 =? 0 then Ok (m4062_of bs) else Invalid).
Proof. exact m4062_at. Qed.
Print Assumptions C77_4062_read.
(** 1001-1004, 1010, 1012: every satellite with an L1 pseudorange *)
Theorem C77_legacy_read_partial : forall k p, let bs := bits_of_bytes p in let h := bits_of (t_hdr (k_sys k)) in legacy_kind k -> all_ranged k bs ->
  run_dec (decode_obs k) p =
    if len bs <? h then Invalid else if negb (U (t_hdr (k_sys k)) bs 2 =? k_num k) then TypeMismatch else if day_or_week (k_sys k) <=? tow_of (k_sys k) bs then Invalid
    else if len bs <? h + bits_of (t_sat k) * n_sats (k_sys k) bs then Invalid else Ok (mkobs (hdr_of (k_sys k) bs) (sats_of k bs)).
Proof. exact obs_at. Qed.
Print Assumptions C77_legacy_read_partial.
(** DF011 = 80000h ("no L1 pseudorange") is reported as a valid pseudorange of 10485.76 m *)
Definition no_range : obs_msg := mkobs (mkhdr 100 345600000 0 0 0) [mksat 5 0 (mkfreq (40 * 2 ^ 19) (GPS_L1_HZ * (40 * 2 ^ 19 + 1234)) 100 180 true true true true) no_freq].
Definition no_range_payload : list Z := match encode_obs K1002 no_range (repeat 0 40) with Some (b, n) => take n b | None => [] end.
Theorem C77_legacy_no_range_refuted : exists p m s, let bs := bits_of_bytes p in
  l1_code K1002 bs (bits_of (t_hdr GPS)) = 2 ^ 19 /\ run_dec (decode_obs K1002) p = Ok m /\ o_sats m = [s] /\ v_pr (l1 s) = true /\ v_pr (l1 (sat_of K1002 bs (bits_of (t_hdr GPS)))) = false.
Proof.
  exists no_range_payload. eexists. eexists. split; [vm_compute; reflexivity |]. split; [vm_compute; reflexivity |]. split; [reflexivity |].
  split; vm_compute; reflexivity.
Qed.
Print Assumptions C77_legacy_no_range_refuted.

(** ** writing: the fields of the encoded message, read back at the positions of the tables, are the message *)
Definition writes {A} (encode : list Z -> list Z * Z) (num nbytes : Z) (at_ : list bool -> A) (m : A) : Prop :=
  forall buff, bytes buff -> nbytes <= len buff ->
    let '(b, n) := encode buff in let bs := bits_of_bytes (take n b) in n = nbytes /\ uat bs 0 12 = num /\ at_ bs = m.
Lemma verdict_ok {A} num t bs (r : res A) m : verdict num t bs r = Ok m -> uat bs 0 12 = num /\ r = Ok m.
Proof.
  unfold verdict. destruct (len bs <? 12); [discriminate |]. destruct (Z.eqb_spec (uat bs 0 12) num); cbn [negb]; [| discriminate]. destruct (len bs <? t); [discriminate |]. auto.
Qed.
Lemma ok_inj {A} (a b : A) : Ok a = Ok b -> a = b.
Proof. now injection 1. Qed.
Lemma writes_of {A B} enc (d : dec A) num n (a : A) (f : list bool -> B) (b : B) :
  round_trips enc (run_dec d) n a -> (forall p, run_dec d p = Ok a -> uat (bits_of_bytes p) 0 12 = num /\ f (bits_of_bytes p) = b) -> writes enc num n f b.
Proof.
  intros R H buff Hb Hl. specialize (R buff Hb Hl). destruct (enc buff) as [x k]. destruct R as (E & _ & _ & D). destruct (H _ D) as [N F]. split; [exact E |]. split; [exact N | exact F].
Qed.
Ltac by_read L := intros p E; rewrite L in E; destruct (verdict_ok _ _ _ _ _ E) as [N F]; split; [exact N |].
Theorem C77_1042_written : forall m, wf_bds m -> 5 < e_sat m -> writes (encode_bds m) 1042 64 bds_of m.
Proof. intros m W S. apply (writes_of _ _ _ _ m _ _ (rt_bds m W S)). by_read bds_at. destruct (_ <=? 5); [discriminate | now injection F]. Qed.
Print Assumptions C77_1042_written.
Theorem C77_1020_written : forall m, wf_glo m -> writes (encode_glo m) 1020 45 glo_of m.
Proof. intros m W. apply (writes_of _ _ _ _ m _ _ (rt_glo m W)). by_read glo_at. now injection F. Qed.
Print Assumptions C77_1020_written.
(** 1019 is right when clock and ephemeris reference times agree; otherwise DF081 (clock) carries the ephemeris time and DF093 the clock time *)
Theorem C77_1019_written_partial : forall m, wf_gps m -> e_toe m = e_toc m -> writes (encode_gps m) 1019 61 gps_of m.
Proof. intros m W S. apply (writes_of _ _ _ _ m _ _ (C15_1019_round_trip_partial m W S)). by_read gps_at. now injection F. Qed.
Print Assumptions C77_1019_written_partial.
Theorem C77_1019_written_refuted : exists m, wf_gps m /\ e_toc m = 7200 /\ e_toe m = 7201 /\ forall buff, bytes buff -> 61 <= len buff ->
  let '(b, n) := encode_gps m buff in U t1019 (bits_of_bytes (take n b)) 81 = 7201 /\ U t1019 (bits_of_bytes (take n b)) 93 = 7200.
Proof.
  exists (sample_gps 7201 7200). assert (W : wf_gps (sample_gps 7201 7200)) by (apply sample_gps_wf; unfold ubits; lia). split; [exact W |]. split; [reflexivity |]. split; [reflexivity |].
  intros buff Hb Hl. pose proof (rt_gps _ W buff Hb Hl) as R. destruct (encode_gps _ buff) as [b n]. destruct R as (_ & _ & _ & D). rewrite gps_at in D. destruct (verdict_ok _ _ _ _ _ D) as [_ F].
  apply ok_inj in F. apply (f_equal e_toc) in F as F1. apply (f_equal e_toe) in F as F2. split; [exact F1 | exact F2].
Qed.
Print Assumptions C77_1019_written_refuted.
(** Galileo: every health value (reading it back is where the sign comes in) *)
Lemma u6 bs o : 0 <= uat bs o 6 < 64.
Proof. split; [apply uat_nonneg |]. unfold uat. pose proof (val_be_range (take 6 (drop o bs))) as R. rewrite len_take in R.
  assert (2 ^ Z.min (Z.max 0 6) (len (drop o bs)) <= 2 ^ 6) by (apply Z.pow_le_mono_r; lia). change (2 ^ 6) with 64 in *. lia. Qed.
Lemma u3 bs o : 0 <= uat bs o 3 < 8.
Proof. split; [apply uat_nonneg |]. unfold uat. pose proof (val_be_range (take 3 (drop o bs))) as R. rewrite len_take in R.
  assert (2 ^ Z.min (Z.max 0 3) (len (drop o bs)) <= 2 ^ 3) by (apply Z.pow_le_mono_r; lia). change (2 ^ 3) with 8 in *. lia. Qed.
Lemma unsign bs o w h : (w = 6 \/ w = 3) -> ubits w h -> s_at bs o w mod 256 = as_s8 w h -> uat bs o w = h.
Proof.
  intros Hw Hh. unfold ubits in Hh. unfold s_at, as_s8. cbv zeta. pose proof (u6 bs o) as A. pose proof (u3 bs o) as B. destruct Hw as [-> | ->].
  - change (2 ^ (6 - 1)) with 32. change (2 ^ 6) with 64 in *. destruct (Z.ltb_spec (uat bs o 6) 32), (Z.ltb_spec h 32); intro E; try rewrite Z.mod_small in E by lia; try lia;
      rewrite (Z.mod_eq _ 256), (Z.div_unique (uat bs o 6 - 64) 256 (-1) (uat bs o 6 + 192)) in E; lia.
  - change (2 ^ (3 - 1)) with 4. change (2 ^ 3) with 8 in *. destruct (Z.ltb_spec (uat bs o 3) 4), (Z.ltb_spec h 4); intro E; try rewrite Z.mod_small in E by lia; try lia;
      rewrite (Z.mod_eq _ 256), (Z.div_unique (uat bs o 3 - 8) 256 (-1) (uat bs o 3 + 248)) in E; lia.
Qed.
Theorem C77_1046_written : forall m, wf_inav m -> writes (encode_inav m) 1046 63 (fun bs => gal_of t1046 bs (Sg t1046 bs 313) (U t1046 bs 316)) m.
Proof.
  intros m W. apply (writes_of _ _ _ _ _ _ _ (rt_inav m W)). by_read inav_at. apply ok_inj in F. destruct W as (W & _ & H).
  assert (V : U t1046 (bits_of_bytes p) 316 = e_health m). { apply (unsign _ 496 6); [lia | exact H |]. exact (f_equal e_health F). }
  rewrite V. transitivity (set_health (gal_of t1046 (bits_of_bytes p) (Sg t1046 (bits_of_bytes p) 313) (Sg t1046 (bits_of_bytes p) 316 mod 256)) (e_health m)); [reflexivity |].
  rewrite F. destruct m; reflexivity.
Qed.
Print Assumptions C77_1046_written.
Theorem C77_1045_written : forall m, wf_fnav m -> writes (encode_fnav m) 1045 62 (fun bs => gal_of t1045 bs 0 (U t1045 bs 314)) m.
Proof.
  intros m W. apply (writes_of _ _ _ _ _ _ _ (rt_fnav m W)). by_read fnav_at. apply ok_inj in F. destruct W as (W & _ & H).
  assert (V : U t1045 (bits_of_bytes p) 314 = e_health m). { apply (unsign _ 486 3); [lia | exact H |]. exact (f_equal e_health F). }
  rewrite V. transitivity (set_health (gal_of t1045 (bits_of_bytes p) 0 (Sg t1045 (bits_of_bytes p) 314 mod 256)) (e_health m)); [reflexivity |].
  rewrite F. destruct m; reflexivity.
Qed.
Print Assumptions C77_1045_written.
Theorem C77_1005_written : forall m, wf_1005 m -> writes (encode_1005 m) 1005 19 (m1005_of t1005) m.
Proof. intros m W. apply (writes_of _ _ _ _ m _ _ (rt_1005 m W)). by_read m1005_at. now injection F. Qed.
Print Assumptions C77_1005_written.
Theorem C77_1006_written : forall m, wf_1006 m -> writes (encode_1006 m) 1006 21 (fun bs => mk1006 (m1005_of t1006 bs) (U t1006 bs 28)) m.
Proof.
  intros m W buff Hb Hl. pose proof (rt_1006 (mk1005 0 0 0 0 0 0 0 0 0 0 0) m W buff Hb Hl) as R. destruct (encode_1006 m buff) as [b n]. destruct R as (E & Lb & _ & D). subst n.
  assert (LL : bits_of t1006 <= len (bits_of_bytes (take 21 b))).
  { rewrite len_bits_of_bytes, len_take. change (bits_of t1006) with 168. lia. }
  assert (N : uat (bits_of_bytes (take 21 b)) 0 12 = 1006).
  { assert (G := D). rewrite run_res in G. unfold decode_1006, expect, dbind in G. rewrite <- (drop_0 (bits_of_bytes (take 21 b))) in G. rewrite get_u_at in G by lia.
    destruct (len _ <? 0 + 12); [discriminate |]. destruct (Z.eqb_spec (uat (bits_of_bytes (take 21 b)) 0 12) 1006); [assumption | discriminate]. }
  split; [reflexivity |]. split; [exact N |]. rewrite (m1006_at _ _ LL N) in D. now injection D.
Qed.
Print Assumptions C77_1006_written.
Theorem C77_1007_written : forall m, wf_1007 m -> writes (encode_1007 m) 1007 (5 + len (ant_descriptor m)) m1007_of m.
Proof. intros m W. apply (writes_of _ _ _ _ m _ _ (rt_1007 m W)). by_read m1007_at. destruct (short _ _); [now injection F | discriminate]. Qed.
Print Assumptions C77_1007_written.
Theorem C77_1008_written : forall m, wf_1008 m -> writes (encode_1008 m) 1008 (6 + len (ant_descriptor (m8_1007 m)) + len (ant_serial_num m)) m1008_of m.
Proof. intros m W. apply (writes_of _ _ _ _ m _ _ (rt_1008 m W)). by_read m1008_at. destruct (short _ _); [now injection F | discriminate]. Qed.
Print Assumptions C77_1008_written.
Theorem C77_1033_written : forall m, wf_1033 m -> writes (encode_1033 m) 1033
  (9 + len (m33_ant_descriptor m) + len (m33_ant_serial_num m) + len (rcv_descriptor m) + len (rcv_fw_version m) + len (rcv_serial_num m)) m1033_of m.
Proof. intros m W. apply (writes_of _ _ _ _ m _ _ (rt_1033 m W)). by_read m1033_at. destruct (short _ _); [now injection F | discriminate]. Qed.
Print Assumptions C77_1033_written.
Theorem C77_1029_written : forall m, wf_1029 m -> writes (encode_1029 m) 1029 (9 + len (utf8_code_units m)) m1029_of m.
Proof. intros m W. apply (writes_of _ _ _ _ m _ _ (rt_1029 m W)). by_read m1029_at. now injection F. Qed.
Print Assumptions C77_1029_written.
Theorem C77_4062_written : forall m, wf_4062 m -> writes (encode_4062 m) 4062 (7 + len (data m)) m4062_of m.
Proof. intros m W. apply (writes_of _ _ _ _ m _ _ (rt_4062 m W)). by_read m4062_at. destruct (_ =? 0); [now injection F | discriminate]. Qed.
Print Assumptions C77_4062_written.
(** 1230: the bias indicator is lost (C09), everything else is where it belongs *)
Theorem C77_1230_written_partial : forall m, wf_1230 m -> bias_indicator m = 0 -> writes (encode_1230 m) 1230 (4 + 2 * popcount4 (fdma_signal_mask m)) m1230_of m.
Proof.
  intros m W Z0. pose proof (rt_1230 m W) as R. replace (mk1230 _ _ _ _ _ _ _) with m in R by (destruct m; cbn in *; now subst).
  apply (writes_of _ _ _ _ m _ _ R). by_read m1230_at. now injection F.
Qed.
Print Assumptions C77_1230_written_partial.

(** ** non-vacuity *)
Example C77_1019_applies : let p := fst (encode_gps (sample_gps 7201 7200) (repeat 0 61)) in len (bits_of_bytes p) = bits_of t1019 /\ gps_of (bits_of_bytes p) = sample_gps 7200 7201.
Proof. vm_compute. split; reflexivity. Qed.
Definition two_sats_payload : list Z := match encode_obs K1004 (sample_msg 2) (repeat 0 100) with Some (b, n) => take n b | None => [] end.
Example C77_legacy_applies : legacy_kind K1004 /\ all_ranged K1004 (bits_of_bytes two_sats_payload) /\ n_sats GPS (bits_of_bytes two_sats_payload) = 2 /\
  exists m, run_dec (decode_obs K1004) two_sats_payload = Ok m /\ len (o_sats m) = 2.
Proof.
  split; [cbn; tauto |]. split.
  - intros i Hi. assert (N : n_sats (k_sys K1004) (bits_of_bytes two_sats_payload) = 2) by (vm_compute; reflexivity). rewrite N in Hi. assert (i = 0 \/ i = 1) as [-> | ->] by lia; vm_compute; discriminate.
  - split; [vm_compute; reflexivity |]. eexists. split; vm_compute; reflexivity.
Qed.
