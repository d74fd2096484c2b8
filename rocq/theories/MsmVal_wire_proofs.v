(** C65: the integer fields of MSM4/MSM5 survive the bit stream *)
From Verif Require Import Base Bits_model Bits_proofs Bitstring Bitstream_model Bitstream_proofs RtcmLegacy_model RtcmLegacy_proofs RtcmMsm_model RtcmMsm_spec RtcmMsm_proofs Sbp2Rtcm_model Sbp2Msm_model MsmVal_model.

Lemma list_eq_znth {A} (d : A) (a b : list A) : len a = len b -> (forall i, 0 <= i < len a -> znth d i a = znth d i b) -> a = b.
Proof.
  intros L H. apply (nth_ext a b d d); [unfold len in L; lia|]. intros n Hn. specialize (H (Z.of_nat n)). unfold znth, len in H. rewrite Nat2Z.id in H. apply H. lia.
Qed.
Definition rx_sat (five : bool) (r : rsat) : rsat :=
  mkrsat (r_int r mod 2 ^ 8) (if five then r_info r mod 2 ^ 4 else 0) (r_mod r mod 2 ^ 10) (if five then to_signed 14 (r_rate r) else MSM_ROUGH_RATE_INVALID).
Definition rx_sig (five : bool) (g : rsig) : rsig :=
  mkrsig (to_signed 15 (r_pr g)) (to_signed 22 (r_cp g)) (r_lock g mod 2 ^ 4) (r_hca g) (r_cnr g mod 2 ^ 6) (if five then to_signed 15 (r_dop g) else MSM_DOP_INVALID).

Section Wire.
Variables (ty : Z) (h : mhdr) (ss : list rsat) (gs : list rsig).
Hypothesis T : ty = 4 \/ ty = 5.
Hypothesis Hh : msm_hdr_ok ty h.
Hypothesis LS : len ss = num_sats h.
Hypothesis LG : len gs = num_cells h.
Definition fields_all : list field := hdr_msm_fields h ++ raw_fields (ty =? 5) ss gs.
Lemma fields_all_ok : Forall width_ok fields_all.
Proof.
  unfold fields_all, raw_fields. change column with col. apply Forall_app. split; [apply hdr_fields_ok|]. repeat (apply Forall_app; split);
    first [apply col_ok; lia|apply flag_fields_ok|destruct (ty =? 5); [apply col_ok; lia|constructor]].
Qed.
Lemma fields_all_total : total fields_all = msm_bits ty h.
Proof.
  unfold fields_all, raw_fields, msm_bits. change column with col. rewrite !total_app, (hdr_fields_total _ _ Hh). rewrite !total_col, total_flags, !len_map, LS, LG.
  destruct (ty =? 5); rewrite ?total_col, ?len_map, ?LS, ?LG; change (total []) with 0; lia.
Qed.
Lemma raw_decode pad : exists r, decode_raw ty (fields_bits fields_all ++ pad) = DOk (decoded_hdr h, map (rx_sat (ty =? 5)) ss, map (rx_sig (ty =? 5)) gs) r.
Proof.
  destruct (hdr_counts _ _ Hh) as (A' & B' & C' & D & E & N1 & N2).
  pose proof Hh as Hh'. unfold msm_hdr_ok in Hh'. destruct Hh' as (H1 & H2 & _ & H4 & _ & _ & _ & _ & _ & _ & _ & K1 & K2 & S1 & S2 & L3).
  pose proof (num_range ty _ T H1) as NR.
  unfold decode_raw. replace (between 4 ty 7) with true by (destruct T as [->| ->]; reflexivity). cbn [negb].
  unfold fields_all. destruct (hdr_decode ty h Hh (raw_fields (ty =? 5) ss gs) pad) as (fs & -> & HD).
  cbn [app]. rewrite bind_u by (clear - NR; lia). rewrite H1, Z.eqb_refl. cbn [negb].
  replace (cons_eqb (to_constellation (mh_num h)) cINVALID) with false by (destruct (to_constellation (mh_num h)); congruence || reflexivity).
  rewrite (dbind_eq _ _ _ _ _ HD). clear HD.
  assert (NS : num_sats (decoded_hdr h) = num_sats h) by reflexivity. assert (NG : num_sigs (decoded_hdr h) = num_sigs h) by reflexivity.
  assert (NC : num_cells (decoded_hdr h) = num_cells h) by reflexivity. rewrite NS, NG, NC.
  replace ((if cons_eqb (to_constellation (mh_num h)) cGLO then RTCM_GLO_MAX_TOW_MS else RTCM_MAX_TOW_MS) <? mh_tow (decoded_hdr h)) with false.
  2:{ symmetry. apply Z.ltb_ge. unfold decoded_hdr, RTCM_GLO_MAX_TOW_MS, RTCM_MAX_TOW_MS, DAY_MS. cbn [mh_tow]. clear - H4.
      destruct (cons_eqb (to_constellation (mh_num h)) cGLO); lia. }
  replace (64 <? num_sats h * num_sigs h) with false by (symmetry; apply Z.ltb_ge; clear - S2 A' B'; rewrite A', B'; lia).
  replace (32 <? num_sats h) with false by (symmetry; apply Z.ltb_ge; clear - S1 A'; rewrite A'; lia).
  assert (LSn : Z.to_nat (num_sats h) = length ss) by (clear - LS; unfold len in LS; lia).
  assert (LCn : Z.to_nat (num_cells h) = length gs) by (clear - LG; unfold len in LG; lia).
  rewrite LSn, LCn. unfold raw_fields. change column with col.
  assert (LEN : forall f : rsat -> Z, length (map f ss) = length ss) by (intros; apply map_length).
  assert (LENC : forall B (f : rsig -> B), length (map f gs) = length gs) by (intros; apply map_length).
  assert (R1 : forall d v, map (rx_sat d) ss = v -> map (rx_sat d) ss = v) by auto.
  destruct T as [-> | ->]; cbn [Z.eqb Pos.eqb orb]; rewrite <- ?app_assoc; cbn [app]; rewrite ?bind_ret.
  - rewrite bind_list_u by (first [apply LEN|clear; lia]). rewrite bind_ret. rewrite bind_list_u by (first [apply LEN|clear; lia]).
    rewrite bind_ret.
    rewrite bind_list_s by (first [apply LENC|clear; lia]). rewrite bind_list_s by (first [apply LENC|clear; lia]).
    rewrite bind_list_u by (first [apply LENC|clear; lia]). rewrite bind_list_b by (apply LENC).
    rewrite bind_list_u by (first [apply LENC|clear; lia]). rewrite bind_ret.
    eexists. unfold ret. f_equal. f_equal; [f_equal|].
    + apply (list_eq_znth no_rsat); [rewrite len_mapi, !len_map; reflexivity|]. rewrite len_mapi, !len_map. intros i Hi.
      rewrite (znth_mapi _ 0), (znth_map _ no_rsat) by (rewrite ?len_map; exact Hi). cbn [Z.add].
      repeat first [rewrite (znth_map _ 0) by (rewrite ?len_map; exact Hi)|rewrite (znth_map _ no_rsat) by exact Hi]. rewrite !znth_repeat by (clear - Hi; unfold len in Hi; lia). reflexivity.
    + apply (list_eq_znth no_rsig); [rewrite len_mapi, !len_map; reflexivity|]. rewrite len_mapi, !len_map. intros i Hi.
      rewrite (znth_mapi _ 0), (znth_map _ no_rsig) by (rewrite ?len_map; exact Hi). cbn [Z.add].
      repeat first [rewrite (znth_map _ 0) by (rewrite ?len_map; exact Hi)|rewrite (znth_map _ no_rsig) by exact Hi]. rewrite !znth_repeat by (clear - Hi; unfold len in Hi; lia). reflexivity.
  - rewrite bind_list_u by (first [apply LEN|clear; lia]). rewrite bind_list_u by (first [apply LEN|clear; lia]).
    rewrite bind_list_u by (first [apply LEN|clear; lia]). rewrite bind_list_s by (first [apply LEN|clear; lia]).
    rewrite bind_list_s by (first [apply LENC|clear; lia]). rewrite bind_list_s by (first [apply LENC|clear; lia]).
    rewrite bind_list_u by (first [apply LENC|clear; lia]). rewrite bind_list_b by (apply LENC).
    rewrite bind_list_u by (first [apply LENC|clear; lia]).
    rewrite <- (app_nil_r (col 15 (map r_dop gs))). rewrite bind_list_s by (first [apply LENC|clear; lia]).
    eexists. unfold ret. f_equal. f_equal; [f_equal|].
    + apply (list_eq_znth no_rsat); [rewrite len_mapi, !len_map; reflexivity|]. rewrite len_mapi, !len_map. intros i Hi.
      rewrite (znth_mapi _ 0), (znth_map _ no_rsat) by (rewrite ?len_map; exact Hi). cbn [Z.add].
      repeat first [rewrite (znth_map _ 0) by (rewrite ?len_map; exact Hi)|rewrite (znth_map _ no_rsat) by exact Hi]. reflexivity.
    + apply (list_eq_znth no_rsig); [rewrite len_mapi, !len_map; reflexivity|]. rewrite len_mapi, !len_map. intros i Hi.
      rewrite (znth_mapi _ 0), (znth_map _ no_rsig) by (rewrite ?len_map; exact Hi). cbn [Z.add].
      repeat first [rewrite (znth_map _ 0) by (rewrite ?len_map; exact Hi)|rewrite (znth_map _ no_rsig) by exact Hi]. reflexivity.
Qed.
(** the encoder, once the fields are computed, and the decoder on its output *)
Lemma encode_decode dsats dsigs buff :
  all_some (map (sat_raw (ty =? 5)) (take (num_sats h) dsats)) = Some ss ->
  all_some (mapi 0 (fun i (c : Z * Z) => sig_raw (ty =? 5) (znth no_rsat (fst c) ss) (znth no_dsig i dsigs)) (cells (num_sats h) (num_sigs h) (cell_mask h))) = Some gs ->
  bytes buff -> byte_len (msm_bits ty h) <= len buff ->
  exists b, encode_msm_d ty (mkdmsg h dsats dsigs) buff = Ok (b, byte_len (msm_bits ty h)) /\ len b = len buff /\ bytes b /\
    run_dec (decode_msm_d ty) (take (byte_len (msm_bits ty h)) b) = Ok (msg_value ty (decoded_hdr h, map (rx_sat (ty =? 5)) ss, map (rx_sig (ty =? 5)) gs)).
Proof.
  intros E1 E2 Hb Hl. destruct (hdr_counts _ _ Hh) as (A' & B' & C' & D & E & N1 & N2).
  pose proof Hh as Hh'. unfold msm_hdr_ok in Hh'. destruct Hh' as (H1 & H2 & _ & H4 & _ & _ & _ & _ & _ & _ & _ & K1 & K2 & S1 & S2 & L3).
  unfold encode_msm_d. cbn [dm_hdr dm_sats dm_sigs]. rewrite H1, Z.eqb_refl. cbn [negb].
  replace ((ty =? 4) || (ty =? 5)) with true by (destruct T as [->| ->]; reflexivity). cbn [negb].
  replace (cons_eqb (to_constellation (mh_num h)) cINVALID) with false by (destruct (to_constellation (mh_num h)); congruence || reflexivity).
  rewrite C'. replace (64 <? num_sats h * num_sigs h) with false by (symmetry; apply Z.ltb_ge; clear - S2 A' B'; rewrite A', B'; lia).
  replace (32 <? num_sats h) with false by (symmetry; apply Z.ltb_ge; clear - S1 A'; rewrite A'; lia).
  cbv zeta. rewrite E1, E2. fold fields_all.
  pose proof (encoded_bits buff fields_all Hb fields_all_ok) as P. rewrite fields_all_total in P.
  assert (Q : msm_bits ty h <= 8 * len buff) by (clear - Hl; unfold byte_len in Hl; lia). specialize (P Q). cbn zeta in P.
  destruct (put_fields buff 0 fields_all) as [b bit]. cbn [fst snd] in P. destruct P as (-> & LB & BB & pad & _ & EB).
  exists b. split; [reflexivity|]. split; [exact LB|]. split; [exact BB|].
  destruct (raw_decode pad) as (r & ED). unfold run_dec, decode_msm_d. rewrite EB. rewrite (dbind_eq _ _ _ _ _ ED). reflexivity.
Qed.
End Wire.
