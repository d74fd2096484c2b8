(** C12, C15 against the published payload layouts rather than against the encoder (which has no MSM6, MSM7 or 1044, and exchanges two fields of 1019).
    [fields_bits] concatenates big-endian fields; MsmWire_spec gives the MSM layout and the meaning of every field. *)
From Verif Require Import Base Bitstring Bits_model Bitstream_model Bitstream_proofs RtcmStation_model RtcmStation_spec RtcmMsm_model RtcmMsm_spec MsmWire_spec MsmWire_proofs
  RtcmEph_model RtcmEph_spec RtcmEph_proofs.

(** Every MSM4, MSM5, MSM6 or MSM7 payload laid out as in the standard, with any header, masks within the array limits and any field
    contents, is accepted and decoded to the header, and to the satellites and cells, it describes. *)
Theorem C12_msm_payload_meaning : forall ty h w pad p, 4 <= ty <= 7 -> msm_hdr_ok ty h ->
  cols_ok ty (set_count (sat_mask h)) (set_count (cell_mask h)) w ->
  bits_of_bytes p = fields_bits (wire_header h ++ wire_columns ty w) ++ pad ->
  exists m, run_dec (decode_msm ty) p = Ok m /\ msm_meaning ty h w m.
Proof.
  intros ty h w pad p T Hh Hw E. unfold run_dec. rewrite E. destruct (wire_decode ty h w T Hh Hw pad) as [r ->].
  eexists. split; [reflexivity|]. apply built_meaning; assumption.
Qed.
(** the extended lock-time indicator: continuous and increasing up to 703, in every block a step of 2^k ms *)
Theorem C12_lock_time_ext : forall l, 0 <= l < 1024 -> from_lock_ext l = lock_ms 7 l /\
  (l < 704 -> from_lock_ext l < from_lock_ext (l + 1)).
Proof.
  intros l H. split; [exact (lock_ext l H)|]. intros L.
  assert (X : forallb (fun l => from_lock_ext l <? from_lock_ext (l + 1)) (map Z.of_nat (seq 0 704)) = true) by (vm_compute; reflexivity).
  rewrite forallb_forall in X. apply Z.ltb_lt, X. apply in_map_iff. exists (Z.to_nat l). split; [lia|]. apply in_seq. lia.
Qed.
(** a sample: MSM7 of GLONASS (1087), 2 satellites, 2 signals, 3 cells, one of them with unknown carrier phase *)
Definition wbits (n : nat) (l : list Z) : list bool := map (fun i => existsb (Z.eqb (Z.of_nat i)) l) (seq 0 n).
Definition wire_sample_hdr : mhdr := mkmhdr 1087 345 259200123 1 3 17 1 2 0 5 (wbits 64 [4; 21]) (wbits 32 [1; 14]) [true; false; true; true].
Definition wire_sample : wcols := mkwcols [67; 255] [7; 13] [1000; 5] [-8192; 300] [5000; -524288; 17] [-8388608; 12; 13] [100; 703; 1023] [true; false; true] [700; 0; 710] [-16384; 5; 6].
Example C12_wire_applies : msm_hdr_ok 7 wire_sample_hdr /\ cols_ok 7 (set_count (sat_mask wire_sample_hdr)) (set_count (cell_mask wire_sample_hdr)) wire_sample.
Proof.
  unfold msm_hdr_ok, cols_ok, ubits, sbits, pr_bits, cp_bits, lock_bits, cnr_bits. change (hi_res 7) with true. cbv iota.
  repeat match goal with |- _ /\ _ => split end;
  match goal with |- Forall _ _ => unfold wire_sample; cbn [w_int w_info w_mod w_rate w_pr w_cp w_lock w_cnr w_dop]; repeat (constructor; [split; reflexivity || (vm_compute; congruence)|]); constructor
  | |- _ => vm_compute; first [reflexivity|congruence] end.
Qed.

(** GPS 1019: satellite DF009, week DF076, URA DF077, code on L2 DF078, IDOT DF079, IODE DF071, toc DF081, af2..af0 DF082-084,
    IODC DF085, Crs DF086, dn DF087, M0 DF088, Cuc DF089, e DF090, Cus DF091, sqrt A DF092, toe DF093, Cic DF094, Omega0 DF095,
    Cis DF096, i0 DF097, Crc DF098, omega DF099, Omegadot DF100, tGD DF101, health DF102, L2 P data flag DF103, fit DF137 *)
Definition layout_1019 (m : keph) : list field :=
  [(12, 1019); (6, e_sat m); (10, e_wn m); (4, e_ura m); (2, e_codeL2 m); (14, e_inc_dot m); (8, e_iode m); (16, e_toc m); (8, e_af2 m); (16, e_af1 m);
   (22, e_af0 m); (10, e_iodc m); (16, e_crs m); (16, e_dn m); (32, e_m0 m); (16, e_cuc m); (32, e_ecc m); (16, e_cus m); (32, e_sqrta m);
   (16, e_toe m); (16, e_cic m); (32, e_omega0 m); (16, e_cis m); (32, e_inc m); (16, e_crc m); (32, e_w m); (24, e_omegadot m); (8, e_tgd0 m);
   (6, e_health m); (1, Z.b2z (e_L2_data_bit m)); (1, e_fit m)].
Theorem C15_1019_payload_meaning : forall m pad p, wf_gps m -> bits_of_bytes p = fields_bits (layout_1019 m) ++ pad -> run_dec decode_gps p = Ok m.
Proof.
  unfold wf_gps. intros m pad p H E. ands. unfold run_dec. rewrite E. clear E. unfold layout_1019, decode_gps. start.
  assert (ubits 1 (Z.b2z (e_L2_data_bit m))) by (destruct (e_L2_data_bit m); unfold ubits; cbn; lia).
  repeat estep. unfold ret. f_equal. match goal with H : e_tgd1 m = 0 |- _ => revert H end. clear. destruct m as [? ? ? ? ? ? ? ? ? ? ? ? ? ? ? ? ? ? ? ? ? ? ? ? ? ? ? ? ? ? b]. cbn.
  intros ->. destruct b; reflexivity.
Qed.
(** QZSS 1044 (DF429-DF457); the two bits [c] "codes on L2" are not kept *)
Definition wf_qzss (m : keph) : Prop :=
  ubits 4 (e_sat m) /\ ubits 16 (e_toc m) /\ sbits 8 (e_af2 m) /\ sbits 16 (e_af1 m) /\ sbits 22 (e_af0 m) /\ ubits 8 (e_iode m) /\ sbits 16 (e_crs m) /\
  sbits 16 (e_dn m) /\ sbits 32 (e_m0 m) /\ sbits 16 (e_cuc m) /\ ubits 32 (e_ecc m) /\ sbits 16 (e_cus m) /\ ubits 32 (e_sqrta m) /\
  ubits 16 (e_toe m) /\ sbits 16 (e_cic m) /\ sbits 32 (e_omega0 m) /\ sbits 16 (e_cis m) /\ sbits 32 (e_inc m) /\ sbits 16 (e_crc m) /\
  sbits 32 (e_w m) /\ sbits 24 (e_omegadot m) /\ sbits 14 (e_inc_dot m) /\ ubits 10 (e_wn m) /\ ubits 4 (e_ura m) /\ ubits 6 (e_health m) /\
  sbits 8 (e_tgd0 m) /\ ubits 10 (e_iodc m) /\ ubits 1 (e_fit m) /\ e_tgd1 m = 0 /\ e_codeL2 m = 0 /\ e_L2_data_bit m = false.
Definition layout_1044 (m : keph) (c : Z) : list field :=
  [(12, 1044); (4, e_sat m); (16, e_toc m); (8, e_af2 m); (16, e_af1 m); (22, e_af0 m); (8, e_iode m); (16, e_crs m); (16, e_dn m); (32, e_m0 m);
   (16, e_cuc m); (32, e_ecc m); (16, e_cus m); (32, e_sqrta m); (16, e_toe m); (16, e_cic m); (32, e_omega0 m); (16, e_cis m); (32, e_inc m);
   (16, e_crc m); (32, e_w m); (24, e_omegadot m); (14, e_inc_dot m); (2, c); (10, e_wn m); (4, e_ura m); (6, e_health m); (8, e_tgd0 m);
   (10, e_iodc m); (1, e_fit m)].
Theorem C15_1044_payload_meaning : forall m c pad p, wf_qzss m -> bits_of_bytes p = fields_bits (layout_1044 m c) ++ pad -> run_dec decode_qzss p = Ok m.
Proof.
  unfold wf_qzss. intros m c pad p H E. ands. unfold run_dec. rewrite E. clear E. unfold layout_1044, decode_qzss. start.
  repeat estep. unfold ret. f_equal. destruct m. cbn in *. subst. reflexivity.
Qed.
Definition sample_1019 : keph := mkkeph 17 345 20700 2 1 0 (-12) 0 5000 (-77) 12 13 (-14) 15 (-999) 123456789 54321 (3 * 10 ^ 9) (-4) 5 (-6) 7 8 9 10 (-11) 20701 300 44 1 true.
Definition sample_1044 : keph := mkkeph 3 345 20700 2 1 0 (-12) 0 5000 (-77) 12 13 (-14) 15 (-999) 123456789 54321 (3 * 10 ^ 9) (-4) 5 (-6) 7 8 9 10 (-11) 20701 300 44 0 false.
Example C15_wire_applies : wf_gps sample_1019 /\ wf_qzss sample_1044 /\ total (layout_1019 sample_1019) = 488 /\ total (layout_1044 sample_1044 1) = 485.
Proof. unfold wf_gps, wf_qzss, ubits, sbits. repeat match goal with |- _ /\ _ => split end; vm_compute; first [reflexivity|congruence]. Qed.
Print Assumptions C12_msm_payload_meaning.
Print Assumptions C12_lock_time_ext.
Print Assumptions C15_1019_payload_meaning.
Print Assumptions C15_1044_payload_meaning.
