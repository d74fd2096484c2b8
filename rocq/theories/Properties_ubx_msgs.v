(** C33, C34: property theorems only.  An in-range message (X_fits) has every field representable in its C type, its own class and
    message id, and as many array elements as its count field (respectively length field, flags) announces. *)
From Verif Require Import Base Bytestream_model Bytestream_proofs UbxMsg_model UbxMsg_proofs UbxVar_model UbxVar_proofs.

Lemma bytes_app a b : bytes a -> bytes b -> bytes (a ++ b).
Proof. unfold bytes. intros. now apply Forall_app. Qed.
Lemma bytes_flat_map {A} (f : A -> list Z) l : (forall x, bytes (f x)) -> bytes (flat_map f l).
Proof. intros H. induction l as [|x l IH]; cbn [flat_map]; [constructor|]. now apply bytes_app. Qed.
Ltac all_bytes := repeat first [apply bytes_app | apply le_bytes | apply bytes_flat_map; intros
  | progress unfold encode_rawx_meas, encode_nav_sat_data, encode_esf_raw_data | match goal with |- bytes (if ?b then _ else _) => destruct b end | constructor].

(** C33: decoding an encoded message yields the message, and consumes exactly its bytes, whatever follows *)
Theorem C33_hnr_pvt_round_trip : forall m rest, hnr_pvt_fits m -> decode_hnr_pvt (encode_hnr_pvt m ++ rest) = Ok (m, rest).
Proof. exact (codec_round_trip _ _ _ hnr_pvt_codec). Qed.
Theorem C33_nav_att_round_trip : forall m rest, nav_att_fits m -> decode_nav_att (encode_nav_att m ++ rest) = Ok (m, rest).
Proof. exact (codec_round_trip _ _ _ nav_att_codec). Qed.
Theorem C33_nav_clock_round_trip : forall m rest, nav_clock_fits m -> decode_nav_clock (encode_nav_clock m ++ rest) = Ok (m, rest).
Proof. exact (codec_round_trip _ _ _ nav_clock_codec). Qed.
Theorem C33_nav_pvt_round_trip : forall m rest, nav_pvt_fits m -> decode_nav_pvt (encode_nav_pvt m ++ rest) = Ok (m, rest).
Proof. exact (codec_round_trip _ _ _ nav_pvt_codec). Qed.
Theorem C33_nav_velecef_round_trip : forall m rest, nav_velecef_fits m -> decode_nav_velecef (encode_nav_velecef m ++ rest) = Ok (m, rest).
Proof. exact (codec_round_trip _ _ _ nav_velecef_codec). Qed.
Theorem C33_nav_status_round_trip : forall m rest, nav_status_fits m -> decode_nav_status (encode_nav_status m ++ rest) = Ok (m, rest).
Proof. exact (codec_round_trip _ _ _ nav_status_codec). Qed.
Theorem C33_mga_gps_eph_round_trip : forall m rest, mga_gps_eph_fits m -> decode_mga_gps_eph (encode_mga_gps_eph m ++ rest) = Ok (m, rest).
Proof. exact (codec_round_trip _ _ _ mga_gps_eph_codec). Qed.
Theorem C33_esf_ins_round_trip : forall m rest, esf_ins_fits m -> decode_esf_ins (encode_esf_ins m ++ rest) = Ok (m, rest).
Proof. exact (codec_round_trip _ _ _ esf_ins_codec). Qed.
Theorem C33_rawx_round_trip : forall m rest, rawx_fits m -> decode_rawx (encode_rawx m ++ rest) = Ok (m, rest).
Proof. exact (codec_round_trip _ _ _ rawx_codec). Qed.
Theorem C33_nav_sat_round_trip : forall m rest, nav_sat_fits m -> decode_nav_sat (encode_nav_sat m ++ rest) = Ok (m, rest).
Proof. exact (codec_round_trip _ _ _ nav_sat_codec). Qed.
Theorem C33_sfrbx_round_trip : forall m rest, sfrbx_fits m -> decode_sfrbx (encode_sfrbx m ++ rest) = Ok (m, rest).
Proof. exact (codec_round_trip _ _ _ sfrbx_codec). Qed.
Theorem C33_esf_meas_round_trip : forall m rest, esf_meas_fits m -> decode_esf_meas (encode_esf_meas m ++ rest) = Ok (m, rest).
Proof. exact (codec_round_trip _ _ _ esf_meas_codec). Qed.
Theorem C33_esf_raw_round_trip : forall m rest, esf_raw_fits m -> decode_esf_raw (encode_esf_raw m ++ rest) = Ok (m, rest).
Proof. exact (codec_round_trip _ _ _ esf_raw_codec). Qed.

(** C34: on every byte string a decoder stays within its input and its output arrays (no undefined behaviour), and it accepts only
    strings that start with the complete encoding of the message it returns, which is in range *)
Theorem C34_hnr_pvt_bounds : forall l, bytes l -> decode_hnr_pvt l <> Ub /\
  (forall m rest, decode_hnr_pvt l = Ok (m, rest) -> l = encode_hnr_pvt m ++ rest /\ hnr_pvt_fits m).
Proof. intros l H. split; [now apply hnr_pvt_codec|]. intros m r E. now apply (codec_exact _ _ _ hnr_pvt_codec). Qed.
Theorem C34_nav_att_bounds : forall l, bytes l -> decode_nav_att l <> Ub /\
  (forall m rest, decode_nav_att l = Ok (m, rest) -> l = encode_nav_att m ++ rest /\ nav_att_fits m).
Proof. intros l H. split; [now apply nav_att_codec|]. intros m r E. now apply (codec_exact _ _ _ nav_att_codec). Qed.
Theorem C34_nav_clock_bounds : forall l, bytes l -> decode_nav_clock l <> Ub /\
  (forall m rest, decode_nav_clock l = Ok (m, rest) -> l = encode_nav_clock m ++ rest /\ nav_clock_fits m).
Proof. intros l H. split; [now apply nav_clock_codec|]. intros m r E. now apply (codec_exact _ _ _ nav_clock_codec). Qed.
Theorem C34_nav_pvt_bounds : forall l, bytes l -> decode_nav_pvt l <> Ub /\
  (forall m rest, decode_nav_pvt l = Ok (m, rest) -> l = encode_nav_pvt m ++ rest /\ nav_pvt_fits m).
Proof. intros l H. split; [now apply nav_pvt_codec|]. intros m r E. now apply (codec_exact _ _ _ nav_pvt_codec). Qed.
Theorem C34_nav_velecef_bounds : forall l, bytes l -> decode_nav_velecef l <> Ub /\
  (forall m rest, decode_nav_velecef l = Ok (m, rest) -> l = encode_nav_velecef m ++ rest /\ nav_velecef_fits m).
Proof. intros l H. split; [now apply nav_velecef_codec|]. intros m r E. now apply (codec_exact _ _ _ nav_velecef_codec). Qed.
Theorem C34_nav_status_bounds : forall l, bytes l -> decode_nav_status l <> Ub /\
  (forall m rest, decode_nav_status l = Ok (m, rest) -> l = encode_nav_status m ++ rest /\ nav_status_fits m).
Proof. intros l H. split; [now apply nav_status_codec|]. intros m r E. now apply (codec_exact _ _ _ nav_status_codec). Qed.
Theorem C34_mga_gps_eph_bounds : forall l, bytes l -> decode_mga_gps_eph l <> Ub /\
  (forall m rest, decode_mga_gps_eph l = Ok (m, rest) -> l = encode_mga_gps_eph m ++ rest /\ mga_gps_eph_fits m).
Proof. intros l H. split; [now apply mga_gps_eph_codec|]. intros m r E. now apply (codec_exact _ _ _ mga_gps_eph_codec). Qed.
Theorem C34_esf_ins_bounds : forall l, bytes l -> decode_esf_ins l <> Ub /\
  (forall m rest, decode_esf_ins l = Ok (m, rest) -> l = encode_esf_ins m ++ rest /\ esf_ins_fits m).
Proof. intros l H. split; [now apply esf_ins_codec|]. intros m r E. now apply (codec_exact _ _ _ esf_ins_codec). Qed.
Theorem C34_rawx_bounds : forall l, bytes l -> decode_rawx l <> Ub /\
  (forall m rest, decode_rawx l = Ok (m, rest) -> l = encode_rawx m ++ rest /\ rawx_fits m).
Proof. intros l H. split; [now apply rawx_codec|]. intros m r E. now apply (codec_exact _ _ _ rawx_codec). Qed.
Theorem C34_nav_sat_bounds : forall l, bytes l -> decode_nav_sat l <> Ub /\
  (forall m rest, decode_nav_sat l = Ok (m, rest) -> l = encode_nav_sat m ++ rest /\ nav_sat_fits m).
Proof. intros l H. split; [now apply nav_sat_codec|]. intros m r E. now apply (codec_exact _ _ _ nav_sat_codec). Qed.
Theorem C34_sfrbx_bounds : forall l, bytes l -> decode_sfrbx l <> Ub /\
  (forall m rest, decode_sfrbx l = Ok (m, rest) -> l = encode_sfrbx m ++ rest /\ sfrbx_fits m).
Proof. intros l H. split; [now apply sfrbx_codec|]. intros m r E. now apply (codec_exact _ _ _ sfrbx_codec). Qed.
Theorem C34_esf_meas_bounds : forall l, bytes l -> decode_esf_meas l <> Ub /\
  (forall m rest, decode_esf_meas l = Ok (m, rest) -> l = encode_esf_meas m ++ rest /\ esf_meas_fits m).
Proof. intros l H. split; [now apply esf_meas_codec|]. intros m r E. now apply (codec_exact _ _ _ esf_meas_codec). Qed.
Theorem C34_esf_raw_bounds : forall l, bytes l -> decode_esf_raw l <> Ub /\
  (forall m rest, decode_esf_raw l = Ok (m, rest) -> l = encode_esf_raw m ++ rest /\ esf_raw_fits m).
Proof. intros l H. split; [now apply esf_raw_codec|]. intros m r E. now apply (codec_exact _ _ _ esf_raw_codec). Qed.

(** C34: cut short anywhere, a message is rejected *)
Theorem C34_hnr_pvt_truncated : forall m k, hnr_pvt_fits m -> 0 <= k < len (encode_hnr_pvt m) -> forall y rest, decode_hnr_pvt (take k (encode_hnr_pvt m)) <> Ok (y, rest).
Proof. intros m k H Hk y r. apply (codec_truncated _ _ _ hnr_pvt_codec); [exact H|unfold encode_hnr_pvt; all_bytes|exact Hk]. Qed.
Theorem C34_nav_att_truncated : forall m k, nav_att_fits m -> 0 <= k < len (encode_nav_att m) -> forall y rest, decode_nav_att (take k (encode_nav_att m)) <> Ok (y, rest).
Proof. intros m k H Hk y r. apply (codec_truncated _ _ _ nav_att_codec); [exact H|unfold encode_nav_att; all_bytes|exact Hk]. Qed.
Theorem C34_nav_clock_truncated : forall m k, nav_clock_fits m -> 0 <= k < len (encode_nav_clock m) -> forall y rest, decode_nav_clock (take k (encode_nav_clock m)) <> Ok (y, rest).
Proof. intros m k H Hk y r. apply (codec_truncated _ _ _ nav_clock_codec); [exact H|unfold encode_nav_clock; all_bytes|exact Hk]. Qed.
Theorem C34_nav_pvt_truncated : forall m k, nav_pvt_fits m -> 0 <= k < len (encode_nav_pvt m) -> forall y rest, decode_nav_pvt (take k (encode_nav_pvt m)) <> Ok (y, rest).
Proof. intros m k H Hk y r. apply (codec_truncated _ _ _ nav_pvt_codec); [exact H|unfold encode_nav_pvt; all_bytes|exact Hk]. Qed.
Theorem C34_nav_velecef_truncated : forall m k, nav_velecef_fits m -> 0 <= k < len (encode_nav_velecef m) -> forall y rest, decode_nav_velecef (take k (encode_nav_velecef m)) <> Ok (y, rest).
Proof. intros m k H Hk y r. apply (codec_truncated _ _ _ nav_velecef_codec); [exact H|unfold encode_nav_velecef; all_bytes|exact Hk]. Qed.
Theorem C34_nav_status_truncated : forall m k, nav_status_fits m -> 0 <= k < len (encode_nav_status m) -> forall y rest, decode_nav_status (take k (encode_nav_status m)) <> Ok (y, rest).
Proof. intros m k H Hk y r. apply (codec_truncated _ _ _ nav_status_codec); [exact H|unfold encode_nav_status; all_bytes|exact Hk]. Qed.
Theorem C34_mga_gps_eph_truncated : forall m k, mga_gps_eph_fits m -> 0 <= k < len (encode_mga_gps_eph m) -> forall y rest, decode_mga_gps_eph (take k (encode_mga_gps_eph m)) <> Ok (y, rest).
Proof. intros m k H Hk y r. apply (codec_truncated _ _ _ mga_gps_eph_codec); [exact H|unfold encode_mga_gps_eph; all_bytes|exact Hk]. Qed.
Theorem C34_esf_ins_truncated : forall m k, esf_ins_fits m -> 0 <= k < len (encode_esf_ins m) -> forall y rest, decode_esf_ins (take k (encode_esf_ins m)) <> Ok (y, rest).
Proof. intros m k H Hk y r. apply (codec_truncated _ _ _ esf_ins_codec); [exact H|unfold encode_esf_ins; all_bytes|exact Hk]. Qed.
Theorem C34_rawx_truncated : forall m k, rawx_fits m -> 0 <= k < len (encode_rawx m) -> forall y rest, decode_rawx (take k (encode_rawx m)) <> Ok (y, rest).
Proof. intros m k H Hk y r. apply (codec_truncated _ _ _ rawx_codec); [exact H|unfold encode_rawx; all_bytes|exact Hk]. Qed.
Theorem C34_nav_sat_truncated : forall m k, nav_sat_fits m -> 0 <= k < len (encode_nav_sat m) -> forall y rest, decode_nav_sat (take k (encode_nav_sat m)) <> Ok (y, rest).
Proof. intros m k H Hk y r. apply (codec_truncated _ _ _ nav_sat_codec); [exact H|unfold encode_nav_sat; all_bytes|exact Hk]. Qed.
Theorem C34_sfrbx_truncated : forall m k, sfrbx_fits m -> 0 <= k < len (encode_sfrbx m) -> forall y rest, decode_sfrbx (take k (encode_sfrbx m)) <> Ok (y, rest).
Proof. intros m k H Hk y r. apply (codec_truncated _ _ _ sfrbx_codec); [exact H|unfold encode_sfrbx; all_bytes|exact Hk]. Qed.
Theorem C34_esf_meas_truncated : forall m k, esf_meas_fits m -> 0 <= k < len (encode_esf_meas m) -> forall y rest, decode_esf_meas (take k (encode_esf_meas m)) <> Ok (y, rest).
Proof. intros m k H Hk y r. apply (codec_truncated _ _ _ esf_meas_codec); [exact H|unfold encode_esf_meas; all_bytes|exact Hk]. Qed.
Theorem C34_esf_raw_truncated : forall m k, esf_raw_fits m -> 0 <= k < len (encode_esf_raw m) -> forall y rest, decode_esf_raw (take k (encode_esf_raw m)) <> Ok (y, rest).
Proof. intros m k H Hk y r. apply (codec_truncated _ _ _ esf_raw_codec); [exact H|unfold encode_esf_raw; all_bytes|exact Hk]. Qed.

(** concrete messages that satisfy the hypotheses *)
Example C33_instance_rawx : let m := mk_rawx 2 0x15 80 4685995016000000000 2098 18 2 1 1 [0; 0]
     [mk_rawx_meas 4715902158077362176 4728779608739020800 1159479296 0 12 0 0 64500 42 3 2 7 7 0;
      mk_rawx_meas 4715902158077362177 4728779608739020801 3306962944 6 3 0 9 1000 30 4 3 8 1 0] in
  rawx_fits m /\ len (encode_rawx m) = 84 /\ decode_rawx (encode_rawx m) = Ok (m, []).
Proof.
  cbv zeta. split; [|split; vm_compute; reflexivity]. unfold rawx_fits, rawx_meas_fits, ufits, sfits.
  repeat match goal with |- _ /\ _ => split | |- Forall _ _ => constructor end; try (vm_compute; reflexivity); try (vm_compute; discriminate); cbn; lia.
Qed.
Example C33_instance_esf_meas : let m := mk_esf_meas 0x10 2 16 77 0x1008 0 [0x0B000102; 0x0A800103] (Some 9) in
  esf_meas_fits m /\ decode_esf_meas (encode_esf_meas m) = Ok (m, []) /\ decode_esf_meas (take 19 (encode_esf_meas m)) = Invalid.
Proof.
  cbv zeta. split; [|split; vm_compute; reflexivity]. unfold esf_meas_fits, ufits.
  change (256 ^ Z.of_nat 4) with 4294967296. change (256 ^ Z.of_nat 2) with 65536.
  cbn [em_class_id em_msg_id em_length em_time_tag em_flags em_id em_data em_calib].
  split; [lia|]. split; [lia|]. split; [lia|]. split; [lia|]. split; [lia|]. split; [lia|].
  split; [repeat constructor; lia|]. split; [reflexivity|]. change (4104 / 8 mod 2 =? 1) with true. cbv iota. exists 9. split; [reflexivity|lia].
Qed.
Example C34_instance_reject : decode_sfrbx ([2; 0x13; 0; 0; 0; 5; 0; 0; 11; 0; 2; 0] ++ repeat 0 44) = Invalid /\
  decode_nav_sat ([1; 0x35; 0; 0; 1; 0; 0; 0; 1; 200; 0; 0] ++ repeat 0 1200) <> Invalid.
Proof. split; vm_compute; [reflexivity|discriminate]. Qed.
Print Assumptions C33_hnr_pvt_round_trip.
Print Assumptions C33_nav_att_round_trip.
Print Assumptions C33_nav_clock_round_trip.
Print Assumptions C33_nav_pvt_round_trip.
Print Assumptions C33_nav_velecef_round_trip.
Print Assumptions C33_nav_status_round_trip.
Print Assumptions C33_mga_gps_eph_round_trip.
Print Assumptions C33_esf_ins_round_trip.
Print Assumptions C33_rawx_round_trip.
Print Assumptions C33_nav_sat_round_trip.
Print Assumptions C33_sfrbx_round_trip.
Print Assumptions C33_esf_meas_round_trip.
Print Assumptions C33_esf_raw_round_trip.
Print Assumptions C34_hnr_pvt_bounds.
Print Assumptions C34_nav_att_bounds.
Print Assumptions C34_nav_clock_bounds.
Print Assumptions C34_nav_pvt_bounds.
Print Assumptions C34_nav_velecef_bounds.
Print Assumptions C34_nav_status_bounds.
Print Assumptions C34_mga_gps_eph_bounds.
Print Assumptions C34_esf_ins_bounds.
Print Assumptions C34_rawx_bounds.
Print Assumptions C34_nav_sat_bounds.
Print Assumptions C34_sfrbx_bounds.
Print Assumptions C34_esf_meas_bounds.
Print Assumptions C34_esf_raw_bounds.
Print Assumptions C34_hnr_pvt_truncated.
Print Assumptions C34_nav_att_truncated.
Print Assumptions C34_nav_clock_truncated.
Print Assumptions C34_nav_pvt_truncated.
Print Assumptions C34_nav_velecef_truncated.
Print Assumptions C34_nav_status_truncated.
Print Assumptions C34_mga_gps_eph_truncated.
Print Assumptions C34_esf_ins_truncated.
Print Assumptions C34_rawx_truncated.
Print Assumptions C34_nav_sat_truncated.
Print Assumptions C34_sfrbx_truncated.
Print Assumptions C34_esf_meas_truncated.
Print Assumptions C34_esf_raw_truncated.
