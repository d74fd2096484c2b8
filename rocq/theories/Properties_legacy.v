(** C10: legacy observation messages. Units: see RtcmLegacy_spec. *)
From Verif Require Import Base Bits_model Bitstream_model Bitstream_proofs RtcmStation_spec RtcmLegacy_model RtcmLegacy_spec RtcmLegacy_proofs.

(** 1001, 1002, 1003, 1004, 1010, 1012: for any header and any list of satellites whose usable members (valid L1 code and
    phase; for 1003 also L2) are at most 31 and physically plausible, encoding succeeds, stays within the stated size, and
    decoding gives the same header and exactly the usable satellites, in order, each recovered to 1 cm in code and 0.25 mm in
    carrier phase, with its validity flags, lock-time class and C/N0. *)
Theorem C10_legacy_round_trip_partial : forall k m buff, legacy_kind k -> hdr_ok k (o_hdr m) ->
  Forall (fun s => usable k s = true -> sat_ok k s) (o_sats m) -> len (filter (usable k) (o_sats m)) <= 31 ->
  bytes buff -> 8 + 32 * len (filter (usable k) (o_sats m)) <= len buff ->
  exists b n, encode_obs k m buff = Some (b, n) /\ len b = len buff /\ bytes b /\
    0 < n <= 8 + 32 * len (filter (usable k) (o_sats m)) /\
    exists m', run_dec (decode_obs k) (take n b) = Ok m' /\ o_hdr m' = o_hdr m /\
      Forall2 (sat_received k) (filter (usable k) (o_sats m)) (o_sats m').
Proof. exact legacy_round_trip. Qed.
Print Assumptions C10_legacy_round_trip_partial.

(** the lock-time indicator classes *)
Theorem C10_lock_time : forall t, 0 <= t -> lock_close t (from_lock_ind (to_lock_ind t)) /\ 0 <= to_lock_ind t < 2 ^ 7.
Proof. exact lock_close_ok. Qed.
Print Assumptions C10_lock_time.

(** code-carrier divergence beyond the 20-bit field: the transmitted value is the phase range shifted by a whole number of
    1500-cycle steps, within half a unit, and at most 2^19 in magnitude *)
Theorem C10_phaserange_rollover : forall x f, 0 < f -> Z.abs x < f * 2 ^ 30 -> 1500 * CYCLE < f * 2 ^ 20 ->
  exists j, 2 * Z.abs (f * encode_diff_phaserange x f - (x + 1500 * CYCLE * j)) <= f
            /\ - C_2P19 <= encode_diff_phaserange x f <= C_2P19.
Proof. exact rollover_congruent. Qed.
Print Assumptions C10_phaserange_rollover.
Example rollover_applies : 1500 * CYCLE < GPS_L1_HZ * 2 ^ 20 /\ 1500 * CYCLE < GPS_L2_HZ * 2 ^ 20 /\ 1500 * CYCLE < GLO_L2_HZ 0 * 2 ^ 20.
Proof. vm_compute. repeat split. Qed.

(** What the full claim would need and the code does not do.

    (1) The rollover may produce exactly +-2^19, i.e. the "phase invalid" pattern in 20 bits. *)
Theorem C10_rollover_hits_invalid_refuted : exists x, 0 < x < GPS_L1_HZ * 2 ^ 21 /\
  encode_diff_phaserange x GPS_L1_HZ mod 2 ^ 20 = CP_INVALID mod 2 ^ 20.
Proof. exists (524288 * GPS_L1_HZ). vm_compute. repeat split. Qed.
Print Assumptions C10_rollover_hits_invalid_refuted.

(** (2) With 32 satellites, the number RTCM_MAX_SATS the encoder stops at, the 5-bit count wraps to 0 and the receiver
    gets no satellite at all. *)
Definition sample_freq (f : Z) (p : Z) : freq := mkfreq p (f * (p + 1234)) 100 180 true true true true.
Definition sample_sat (i : Z) : sat :=
  let p := 42000000123 + 1000003 * i in mksat i 0 (sample_freq GPS_L1_HZ p) (sample_freq GPS_L2_HZ (p + 777)).
Definition sample_msg (n : nat) : obs_msg := mkobs (mkhdr 100 345600000 0 0 0) (map (fun i => sample_sat (Z.of_nat i)) (seq 1 n)).
Lemma sample_sat_ok i : 0 < i <= 32 -> sat_ok K1004 (sample_sat i).
Proof.
  intros Hi. unfold sat_ok, sample_sat, freq_ok, carrier_ok, sample_freq, ubits.
  cbn [k_sys k_two K1004 sv fcn l1 l2 pr cp lock cnr v_pr v_cp v_lock freq_l1 freq_l2 prunit amb_max].
  unfold PRUNIT_GPS, GPS_L1_HZ, GPS_L2_HZ. repeat split; try lia; try discriminate; intros; lia.
Qed.
Lemma sample_sats_ok n : Z.of_nat n <= 32 -> Forall (sat_ok K1004) (o_sats (sample_msg n)).
Proof.
  intros Hn. unfold sample_msg. cbn [o_sats]. apply Forall_map. apply Forall_forall. intros i Hi.
  apply in_seq in Hi. apply sample_sat_ok. lia.
Qed.
Theorem C10_32_satellites_refuted : exists m, hdr_ok K1004 (o_hdr m) /\ Forall (sat_ok K1004) (o_sats m) /\ len (o_sats m) = RTCM_MAX_SATS /\
  Forall (fun s => usable K1004 s = true) (o_sats m) /\
  match encode_obs K1004 m (repeat 0 1023) with
  | Some (b, n) => exists m', run_dec (decode_obs K1004) (take n b) = Ok m' /\ o_sats m' = []
  | None => False
  end.
Proof.
  exists (sample_msg 32). split; [unfold hdr_ok, ubits; cbn; unfold RTCM_MAX_TOW_MS; lia|].
  split; [apply sample_sats_ok; lia|]. split; [reflexivity|]. split; [cbn; repeat constructor|].
  destruct (encode_obs K1004 (sample_msg 32) (repeat 0 1023)) as [[b n]|] eqn:E.
  - exists (mkobs (o_hdr (sample_msg 32)) []). split; [|reflexivity].
    assert (run_dec (decode_obs K1004) (let '(b', n') := match encode_obs K1004 (sample_msg 32) (repeat 0 1023) with Some x => x | None => ([], 0) end in take n' b')
            = Ok (mkobs (o_hdr (sample_msg 32)) [])) as H by (vm_compute; reflexivity).
    rewrite E in H. exact H.
  - assert (H : match encode_obs K1004 (sample_msg 32) (repeat 0 1023) with Some _ => true | None => false end = true) by (vm_compute; reflexivity).
    rewrite E in H. discriminate.
Qed.
Print Assumptions C10_32_satellites_refuted.

(** (3) 1004 includes satellites without L2; their L2 code is 0 in the message struct, the encoder subtracts the light
    milliseconds of L1 from it and converts a negative double to an unsigned integer (undefined behaviour). *)
Theorem C10_missing_l2_refuted : exists m, hdr_ok K1004 (o_hdr m) /\ Forall (fun s => usable K1004 s = true) (o_sats m) /\
  (forall s, In s (o_sats m) -> sat_ok K1002 s) /\ forall buff, encode_obs K1004 m buff = None.
Proof.
  exists (mkobs (mkhdr 100 345600000 0 0 0) [mksat 5 0 (sample_freq GPS_L1_HZ 42000000123) no_freq]).
  split; [unfold hdr_ok, ubits; cbn; unfold RTCM_MAX_TOW_MS; lia|]. split; [repeat constructor|]. split.
  - intros s [<-|[]]. unfold sat_ok, freq_ok, carrier_ok, sample_freq, ubits.
    cbn [k_sys k_two K1002 sv fcn l1 l2 pr cp lock cnr v_pr v_cp v_lock freq_l1 prunit amb_max].
    unfold PRUNIT_GPS, GPS_L1_HZ. repeat split; try lia; discriminate.
  - intros buff. unfold encode_obs. cbn [o_sats enc_sats].
    assert (E : enc_sat K1004 (mksat 5 0 (sample_freq GPS_L1_HZ 42000000123) no_freq) = None) by (vm_compute; reflexivity).
    rewrite E. reflexivity.
Qed.
Print Assumptions C10_missing_l2_refuted.

(** C14 for the legacy observation messages *)
Theorem C14_truncated_legacy_observations_rejected : forall k, legacy_kind k -> forall p m, run_dec (decode_obs k) p = Ok m ->
  exists n, 0 <= n <= 8 * len p /\ forall i, 0 <= i <= len p -> run_dec (decode_obs k) (take i p) = if 8 * i <? n then Invalid else Ok m.
Proof. intros k Hk. exact (truncation _ (cut_obs k Hk)). Qed.
Print Assumptions C14_truncated_legacy_observations_rejected.

(** non-vacuity: a 31-satellite 1004 message meets every hypothesis of the round trip *)
Example C10_applies : hdr_ok K1004 (o_hdr (sample_msg 31)) /\
  Forall (fun s => usable K1004 s = true -> sat_ok K1004 s) (o_sats (sample_msg 31)) /\ len (filter (usable K1004) (o_sats (sample_msg 31))) = 31.
Proof.
  split; [unfold hdr_ok, ubits; cbn; unfold RTCM_MAX_TOW_MS; lia|]. split; [|reflexivity].
  eapply Forall_impl; [|apply (sample_sats_ok 31); lia]. auto.
Qed.
