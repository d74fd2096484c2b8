(** C07, C08, C09, C14 (station messages), C16: property theorems only. *)
From Verif Require Import Base Crc Bitstring Bits_model Bitstream_model Bitstream_proofs RtcmFraming_model RtcmFraming_spec RtcmFrameOut_model
  RtcmStation_model RtcmStation_spec RtcmStation_proofs RtcmMessage_proofs.

(** C07 *)
Theorem C07_1005_round_trip : forall m, wf_1005 m -> round_trips (encode_1005 m) (run_dec decode_1005) 19 m.
Proof. exact rt_1005. Qed.
Print Assumptions C07_1005_round_trip.
(** [garbage]: what the caller's struct held before decoding *)
Theorem C07_1006_round_trip : forall garbage m, wf_1006 m -> round_trips (encode_1006 m) (run_dec (decode_1006 garbage)) 21 m.
Proof. exact rt_1006. Qed.
Print Assumptions C07_1006_round_trip.
(** any antenna height comes back clamped to 0 .. 6.5535 m *)
Theorem C07_1006_height_clamped : forall garbage m h, wf_1005 m ->
  round_trips (encode_1006 (mk1006 m h)) (run_dec (decode_1006 garbage)) 21 (mk1006 m (Z.max 0 (Z.min 65535 h))).
Proof.
  intros g m h H. replace (Z.max 0 (Z.min 65535 h)) with (clamp_height h); [exact (rt_1006_clamp g m h H)|].
  unfold clamp_height. destruct (Z.ltb_spec h 0); [lia|]. destruct (Z.ltb_spec 65535 h); lia.
Qed.
Print Assumptions C07_1006_height_clamped.
Theorem C07_1007_round_trip : forall m, wf_1007 m ->
  round_trips (encode_1007 m) (run_dec decode_1007) (5 + len (ant_descriptor m)) m.
Proof. exact rt_1007. Qed.
Print Assumptions C07_1007_round_trip.
Theorem C07_1008_round_trip : forall m, wf_1008 m ->
  round_trips (encode_1008 m) (run_dec decode_1008) (6 + len (ant_descriptor (m8_1007 m)) + len (ant_serial_num m)) m.
Proof. exact rt_1008. Qed.
Print Assumptions C07_1008_round_trip.
Theorem C07_1033_round_trip : forall m, wf_1033 m ->
  round_trips (encode_1033 m) (run_dec decode_1033)
    (9 + len (m33_ant_descriptor m) + len (m33_ant_serial_num m) + len (rcv_descriptor m) + len (rcv_fw_version m) + len (rcv_serial_num m)) m.
Proof. exact rt_1033. Qed.
Print Assumptions C07_1033_round_trip.

(** C08 *)
Theorem C08_1029_round_trip : forall m, wf_1029 m ->
  round_trips (encode_1029 m) (run_dec decode_1029) (9 + len (utf8_code_units m)) m.
Proof. exact rt_1029. Qed.
Print Assumptions C08_1029_round_trip.

(** C09: everything but the bias indicator round-trips; the indicator always comes back 0. *)
Theorem C09_1230_round_trip_partial : forall m, wf_1230 m ->
  round_trips (encode_1230 m) (run_dec decode_1230) (4 + 2 * popcount4 (fdma_signal_mask m))
    (mk1230 (m230_stn_id m) 0 (fdma_signal_mask m) (l1_ca m) (l1_p m) (l2_ca m) (l2_p m)).
Proof. exact rt_1230. Qed.
Print Assumptions C09_1230_round_trip_partial.
Theorem C09_1230_bias_indicator_refuted : exists m, wf_1230 m /\ bias_indicator m = 1 /\
  ~ round_trips (encode_1230 m) (run_dec decode_1230) (4 + 2 * popcount4 (fdma_signal_mask m)) m.
Proof.
  exists (mk1230 7 1 15 (-3) 4 5 6). split; [|split; [reflexivity|]].
  - unfold wf_1230, ubits, bias_ok, sbits. cbn. repeat split; try lia; discriminate.
  - intros H. specialize (H (repeat 0 12) ltac:(repeat constructor; unfold byte; lia) ltac:(vm_compute; discriminate)).
    vm_compute in H. destruct H as (_ & _ & _ & H). discriminate.
Qed.
Print Assumptions C09_1230_bias_indicator_refuted.

(** C16 *)
Theorem C16_4062_round_trip : forall m, wf_4062 m -> round_trips (encode_4062 m) (run_dec decode_4062) (7 + len (data m)) m.
Proof. exact rt_4062. Qed.
Print Assumptions C16_4062_round_trip.

(** C05 applied: any of the messages above survives encoder, framing, transport in arbitrary pieces, deframing, decoder. *)
Theorem C05_message_through_transport : forall M (enc : list Z -> list Z * Z) (decode : list Z -> res M) n m,
  round_trips enc decode n m -> 0 < n <= 1017 ->
  exists f, encode_rtcm3_frame enc = Ok f /\ valid_frame f /\ len f = n + 6 /\ decode (sub f 3 n) = Ok m /\
    forall chunks, Forall good_read chunks -> concat chunks = f -> exists r, run chunks = Some (r, [f]).
Proof. exact @transport. Qed.
Print Assumptions C05_message_through_transport.

(** C14: when a payload is accepted, exactly some number [k] of its bits was needed; every byte prefix with fewer bits
    is rejected as invalid, every longer prefix gives the same message. *)
Definition truncation_rejected {M} (d : dec M) : Prop := forall p m, run_dec d p = Ok m ->
  exists k, 0 <= k <= 8 * len p /\ forall n, 0 <= n <= len p -> run_dec d (take n p) = if 8 * n <? k then Invalid else Ok m.
Theorem C14_truncated_station_messages_rejected :
  truncation_rejected decode_1005 /\ truncation_rejected decode_1007 /\ truncation_rejected decode_1008 /\
  truncation_rejected decode_1029 /\ truncation_rejected decode_1033 /\ truncation_rejected decode_1230 /\ truncation_rejected decode_4062.
Proof.
  exact (conj (truncation _ cut_1005) (conj (truncation _ cut_1007) (conj (truncation _ cut_1008) (conj (truncation _ cut_1029)
    (conj (truncation _ cut_1033) (conj (truncation _ cut_1230) (truncation _ cut_4062))))))).
Qed.
Print Assumptions C14_truncated_station_messages_rejected.
(** C14 is false for 1006: an 8-byte prefix of a valid 21-byte message is accepted, with the station position
    left uninitialised. *)
Definition sample_1006 : msg_1006 := mk1006 (mk1005 5 1 1 1 1 0 (-27044000001) 1 (-43081234567) 2 38551234567) 12345.
Theorem C14_truncated_1006_refuted : exists m, wf_1006 m /\ forall garbage, exists m',
  run_dec (decode_1006 garbage) (take 8 (fst (encode_1006 m (repeat 0 21)))) = Ok m' /\ m6_1005 m' = garbage /\ ant_height m' <> ant_height m.
Proof.
  exists sample_1006. split.
  - unfold wf_1006, wf_1005, ubits, sbits. cbn. lia.
  - intros g. eexists. split; [|split; [|]].
    + assert (E : take 8 (fst (encode_1006 sample_1006 (repeat 0 21))) = [62; 224; 5; 7; 185; 180; 13; 78]) by (vm_compute; reflexivity).
      rewrite E. vm_compute. reflexivity.
    + reflexivity.
    + cbn. discriminate.
Qed.
Print Assumptions C14_truncated_1006_refuted.

(** ** non-vacuity *)
Example wf_1006_sample : wf_1006 sample_1006. Proof. unfold wf_1006, wf_1005, ubits, sbits. cbn. lia. Qed.
Example wf_1033_sample : wf_1033 (mk1033 3 [72; 105] 9 [49] [] [49; 46; 50] [255]).
Proof. unfold wf_1033, ubits, text. cbn. repeat split; try lia; repeat constructor; unfold byte; lia. Qed.
Example wf_1029_sample : wf_1029 (mk1029 3 59000 86399 2 [72; 105]).
Proof. unfold wf_1029, ubits, text. cbn. repeat split; try lia; repeat constructor; unfold byte; lia. Qed.
Example wf_1230_sample : wf_1230 (mk1230 3 0 5 0 (-7) 0 32767).
Proof. unfold wf_1230, ubits, bias_ok, sbits. cbn. repeat split; try lia; discriminate. Qed.
Example wf_4062_sample : wf_4062 (mk4062 0xFF00 4096 [1; 2; 3]).
Proof. unfold wf_4062, ubits, text. cbn. repeat split; try lia; repeat constructor; unfold byte; lia. Qed.
Example accepted_1005_sample : run_dec decode_1005 (fst (encode_1005 (m6_1005 sample_1006) (repeat 0 19))) = Ok (m6_1005 sample_1006).
Proof. vm_compute. reflexivity. Qed.
