(** C65: an SBP observation epoch converted to MSM4/MSM5 messages and back. *)
From Coq Require Import Reals Lra Permutation.
From Flocq Require Import Core.
From Verif Require Import Base Bits_model Bits_proofs Bitstring Bitstream_model Bitstream_proofs RtcmMsm_model RtcmMsm_spec RtcmMsm_proofs Signals_model Signals_spec Signals_proofs Time_model Double_model Double_proofs SbpEph_spec Exact_proofs
  Sbp2Rtcm_model Sbp2Msm_model Sbp2Msm_spec Sbp2Msm_proofs Sbp2Msm_epoch_proofs MsmVal_model MsmVal_spec MsmVal_proofs MsmVal_wire_proofs MsmVal_cell_proofs MsmVal_epoch_proofs.
Import ListNotations.
Open Scope Z_scope.

(** the time written to the header is in range *)
Lemma header_tow cfg e c h k : header_of cfg e c h -> 0 <= oh_tow (e_hdr e) < 604800000 -> c_leap cfg = Some k -> 0 <= mh_tow h <= 604799999.
Proof.
  intros (_ & _ & _ & _ & _ & _ & _ & _ & H) R L.
  assert (B : 0 <= gps_tow_to_beidou_tow (oh_tow (e_hdr e)) <= 604799999).
  { unfold gps_tow_to_beidou_tow, WEEK_MS in *. destruct (oh_tow (e_hdr e) <? 14000) eqn:Q; [apply Z.ltb_lt in Q|apply Z.ltb_ge in Q]; rewrite Z.mod_small; lia. }
  destruct c; try (rewrite H; lia).
  unfold compute_glo_tow_ms in H. rewrite L in H. set (t := (if _ <=? _ then _ else _)) in H. destruct (_ && _); [|discriminate H]. injection H as H. rewrite <- H.
  pose proof (Z.mod_pos_bound t WEEK_MS ltac:(reflexivity)). unfold WEEK_MS in *. lia.
Qed.
Lemma header_ok cfg e c h k : (c_type cfg = 4 \/ c_type cfg = 5) -> c <> cINVALID -> header_of cfg e c h -> 0 <= oh_tow (e_hdr e) < 604800000 -> c_leap cfg = Some k ->
  0 <= mh_multiple h <= 1 -> mask_sizes h -> set_count (sat_mask h) <= 32 -> set_count (sat_mask h) * set_count (sig_mask h) <= 64 -> msm_hdr_ok (c_type cfg) (trim h).
Proof.
  intros TY NC H TOW L MB (L1 & L2 & L3) G1 G2. pose proof (header_tow _ _ _ _ _ H TOW L) as HT. destruct H as (N & S & E1 & E2 & E3 & E4 & E5 & E6 & _).
  unfold msm_hdr_ok, RtcmStation_spec.ubits, trim. cbn [mh_num mh_stn mh_tow mh_multiple mh_iods mh_reserved mh_steering mh_ext_clock mh_div mh_smooth sat_mask sig_mask cell_mask].
  rewrite E1, E2, E3, E4, E5, E6, N, S. rewrite msg_num_cons by assumption.
  pose proof (Z.mod_pos_bound (e_sender e) 4096 eq_refl). pose proof (set_count_range (sat_mask h)). pose proof (set_count_range (sig_mask h)).
  rewrite len_take, L3.
  split; [|split; [exact NC|]].
  { clear - TY NC. destruct TY as [-> | ->]; destruct c; try reflexivity; contradiction. }
  change (2 ^ 12) with 4096. change (2 ^ 1) with 2. change (2 ^ 3) with 8. change (2 ^ 7) with 128. change (2 ^ 2) with 4.
  assert (0 <= set_count (sat_mask h) * set_count (sig_mask h)) by nia.
  repeat split; lia.
Qed.

Section C65.
(** carrier frequencies and code numbering of libswiftnav *)
Variable carrier : code -> Z.
Variable code_of : Z -> code.
Variable num_of : code -> Z.

(** the same with the headers, used below and in Properties_rxtx.v *)
Lemma obs_to_msm_full fcns rc cfg e leap :
  carriers_ok carrier -> (forall k, code_of (num_of k) = k) -> fcn_map_ok fcns -> fcn_map_ok (rc_fcns rc) -> maps_agree fcns (rc_fcns rc) ->
  c_type cfg = 4 \/ c_type cfg = 5 -> c_leap cfg = Some leap -> -128 <= leap <= 127 -> 0 <= oh_tow (e_hdr e) < 604800000 ->
  epoch_ok code_of (e_obs e) -> Forall obs_in_range (e_obs e) ->
  exists out, buffer_to_msm code_of cfg e = Some out /\
    Forall2 (fun c m => msm_of code_of cfg e c m /\ 0 <= mh_multiple (om_hdr m) <= 1 /\ exists dm, values carrier code_of fcns m = Some dm /\
      forall buff, bytes buff -> 678 <= len buff -> exists b n dm',
        encode_msm_d (c_type cfg) dm buff = Ok (b, n) /\ 0 < n <= 678 /\ 8 * n <= 240 + 99 * len (obs_of code_of c (e_obs e)) /\ len b = len buff /\ bytes b /\
        run_dec (decode_msm_d (c_type cfg)) (take n b) = Ok dm' /\ dm_hdr dm' = decoded_hdr (trim (om_hdr m)) /\
        exists ord opts, Permutation ord (obs_of code_of c (e_obs e)) /\
          Forall2 (outcome carrier code_of (c_type cfg) fcns (rc_fcns rc) (rc_masked rc) (e_obs e)) ord opts /\
          to_sbp carrier num_of rc dm' = Some (flat_map (fun r => match r with Some o => [o] | None => [] end) opts))
      (present code_of (e_obs e)) out.
Proof.
  intros CAR NUM FM FMr AG TY LK LR TOW OK RG.
  destruct (epoch_full code_of cfg e TY TOW) as (out & EO & F); [intros k Hk; rewrite Hk in LK; injection LK as ->; exact LR|exact OK|].
  exists out. split; [exact EO|]. clear EO.
  assert (PR : forall c, In c (present code_of (e_obs e)) -> c <> cINVALID).
  { intros c Hc ->. unfold present in Hc. apply filter_In in Hc. destruct Hc as [Hc _]. cbn in Hc. intuition discriminate. }
  destruct OK as (PL & DUP & SZ).
  revert PR F. generalize (present code_of (e_obs e)) as cs. intros cs PR F.
  induction F as [|c m cs ms (MO & FU & MB) F IH]; [constructor|]. constructor; [|apply IH; intros c' Hc'; apply PR; right; exact Hc'].
  assert (NC : c <> cINVALID) by (apply PR; left; reflexivity). clear IH F.
  set (l := obs_of code_of c (e_obs e)) in *.
  assert (LP : Forall (fun o => exists i j, placed code_of c o i j) l).
  { apply Forall_forall. intros o Ho. apply obs_of_in in Ho. destruct Ho as [Ho Ec]. rewrite Forall_forall in PL. destruct (PL o Ho) as (c' & i & j & _ & P).
    assert (c' = c) by (destruct P as [P1 _]; congruence). subst c'. exists i, j. exact P. }
  assert (LD : NoDup (map (fun o => (o_sat o, sig_of code_of o)) l)) by (apply nodup_filter_map; exact DUP).
  assert (INC : forall o, In o l -> In o (e_obs e)) by (intros o Ho; apply obs_of_in in Ho; tauto).
  destruct (SZ c) as [Z32 Z64]. fold l in Z32, Z64. split; [exact MO|]. split; [exact MB|]. destruct MO as (HO & _ & _).
  assert (RL : Forall obs_in_range l) by (apply Forall_forall; intros o Ho; rewrite Forall_forall in RG; apply RG; apply INC; exact Ho).
  assert (TC : to_constellation (mh_num (om_hdr m)) = c) by (destruct HO as (-> & _); apply msg_num_cons; assumption).
  destruct FU as (M & B & REST) eqn:EQ. clear EQ. destruct (grid_le code_of c l LP Z32 Z64 (om_hdr m) B) as [G1 G2].
  pose proof (header_ok _ _ _ _ _ TY NC HO TOW LK MB M G1 G2) as HK.
  apply (one_message carrier code_of num_of CAR NUM fcns FM c l m (c_type cfg) TY NC LP LD Z32 Z64 RL (conj M (conj B REST)) TC rc FMr AG (e_obs e) INC HK).
Qed.
(** An SBP observation epoch becomes MSM4/MSM5 messages, one per constellation present; each message fits into an RTCM payload (at most 30 bytes and 99 bits per observation), is accepted by the
    decoder, and turned back into SBP it yields, for each observation of that constellation, either nothing (only if the receiver discards the
    constellation or signal, or the pseudorange is more than 146 m from another pseudorange of the satellite) or an observation of the same satellite and
    signal with exactly the same pseudorange integer, carrier phase integers and Doppler integers; phase and Doppler are lost only if the
    frequency is unknown or the value is far from the rest of the satellite.  Nothing else comes out, and no step is undefined. *)
Theorem C65_obs_to_msm_and_back fcns rc cfg e leap :
  carriers_ok carrier -> (forall k, code_of (num_of k) = k) -> fcn_map_ok fcns -> fcn_map_ok (rc_fcns rc) -> maps_agree fcns (rc_fcns rc) ->
  c_type cfg = 4 \/ c_type cfg = 5 -> c_leap cfg = Some leap -> -128 <= leap <= 127 -> 0 <= oh_tow (e_hdr e) < 604800000 ->
  epoch_ok code_of (e_obs e) -> Forall obs_in_range (e_obs e) ->
  exists out, buffer_to_msm code_of cfg e = Some out /\
    Forall2 (fun c m => exists dm, values carrier code_of fcns m = Some dm /\
      forall buff, bytes buff -> 678 <= len buff -> exists b n dm',
        encode_msm_d (c_type cfg) dm buff = Ok (b, n) /\ 0 < n <= 678 /\ 8 * n <= 240 + 99 * len (obs_of code_of c (e_obs e)) /\ len b = len buff /\ bytes b /\
        run_dec (decode_msm_d (c_type cfg)) (take n b) = Ok dm' /\
        exists ord opts, Permutation ord (obs_of code_of c (e_obs e)) /\
          Forall2 (outcome carrier code_of (c_type cfg) fcns (rc_fcns rc) (rc_masked rc) (e_obs e)) ord opts /\
          to_sbp carrier num_of rc dm' = Some (flat_map (fun r => match r with Some o => [o] | None => [] end) opts))
      (present code_of (e_obs e)) out.
Proof.
  intros CAR NUM FM FMr AG TY LK LR TOW OK RG. destruct (obs_to_msm_full fcns rc cfg e leap CAR NUM FM FMr AG TY LK LR TOW OK RG) as (out & EO & F).
  exists out. split; [exact EO|]. clear EO. induction F as [|c m cs ms (_ & _ & dm & V & H) F IH]; constructor; [|exact IH]. exists dm. split; [exact V|]. intros buff B L.
  destruct (H buff B L) as (b & n & dm' & EN & N1 & N2 & LB & BB & DE & _ & REST). exists b, n, dm'. auto 10.
Qed.
End C65.

(** A concrete case: two GPS satellites, one of them on two signals, and a GLONASS satellite; every value arrives. *)
Definition all_codes : list code :=
  [GPS_L1CA; GPS_L1P; GPS_L1CI; GPS_L1CQ; GPS_L1CX; GPS_L2CM; GPS_L2CL; GPS_L2CX; GPS_L2P; GPS_L5I; GPS_L5Q; GPS_L5X;
   SBAS_L1CA; SBAS_L5I; SBAS_L5Q; SBAS_L5X; GLO_L1OF; GLO_L2OF; GLO_L1P; GLO_L2P;
   GAL_E1B; GAL_E1C; GAL_E1X; GAL_E6B; GAL_E6C; GAL_E6X; GAL_E7I; GAL_E7Q; GAL_E7X; GAL_E8I; GAL_E8Q; GAL_E8X; GAL_E5I; GAL_E5Q; GAL_E5X;
   QZS_L1CA; QZS_L1CI; QZS_L1CQ; QZS_L1CX; QZS_L2CM; QZS_L2CL; QZS_L2CX; QZS_L5I; QZS_L5Q; QZS_L5X;
   BDS2_B1; BDS2_B2; BDS3_B1CI; BDS3_B1CQ; BDS3_B1CX; BDS3_B3I; BDS3_B3Q; BDS3_B3X; BDS3_B5I; BDS3_B5Q; BDS3_B5X; BDS3_B7I; BDS3_B7Q; BDS3_B7X].
Definition ex_code_of (z : Z) : code := nth (Z.to_nat z) all_codes CODE_INVALID.
Fixpoint index_of (k : code) (l : list code) (i : Z) : Z := match l with [] => i | x :: l => if code_eq_dec k x then i else index_of k l (i + 1) end.
Definition ex_num_of (k : code) : Z := index_of k all_codes 0.
Definition ex_carrier (k : code) : Z := match k with GAL_E1B | GAL_E1C | GAL_E1X | BDS3_B1CI => 1575420000 | BDS2_B1 => 1561098000 | _ => 1176450000 end.
Definition ex_fcns : list Z := repeat 255 7 ++ [8] ++ repeat 255 21.
Definition ex_rc : rcfg := mkrcfg (fun _ => false) ex_fcns.
Definition ex_cfg (ty : Z) : ocfg := mkocfg ty (Some 18).
Definition ex_obs : list pobs :=
  [mkpobs 1061728394 111588407 107 3217 229 180 9 15 5 0; mkpobs 1061728562 86952019 117 2507 115 160 9 15 5 6;
   mkpobs 1200006172 126121499 250 (-1752) 127 171 5 11 12 0; mkpobs 999999975 106911459 99 (-5354) 104 200 12 15 7 16].
Definition ex_epoch : epoch := mkepoch 0x1234 (mkohdr 345600200 0 2190 16) ex_obs.
Definition chain (carrier : code -> Z) (code_of : Z -> code) (num_of : code -> Z) (fcns : list Z) (rc : rcfg) (cfg : ocfg) (e : epoch) : option (list (option (list pobs))) :=
  match buffer_to_msm code_of cfg e with
  | None => None
  | Some ms => Some (map (fun m =>
      match values carrier code_of fcns m with
      | None => None
      | Some dm => match encode_msm_d (c_type cfg) dm (repeat 0 1023) with
                   | Ok (b, n) => match run_dec (decode_msm_d (c_type cfg)) (take n b) with Ok dm' => to_sbp carrier num_of rc dm' | _ => None end
                   | _ => None
                   end
      end) ms)
  end.
Lemma ex_numbering k : ex_code_of (ex_num_of k) = k. Proof. destruct k; vm_compute; reflexivity. Qed.
Lemma ex_carriers : carriers_ok ex_carrier. Proof. intros k. destruct k; cbn; lia. Qed.
Lemma ex_map_ok : fcn_map_ok ex_fcns.
Proof. split; [reflexivity|]. vm_compute. repeat (apply Forall_cons; [first [right; reflexivity|left; split; discriminate]|]). apply Forall_nil. Qed.
Lemma ex_epoch_ok : epoch_ok ex_code_of (e_obs ex_epoch).
Proof.
  split; [|split].
  - repeat (apply Forall_cons; [|]); [exists cGPS, 4, 1|exists cGPS, 4, 15|exists cGPS, 11, 1|exists cGLO, 6, 1|];
      try apply Forall_nil; (split; [discriminate|]); unfold placed, sat_pos, sig_pos; (split; [reflexivity|]); (split; [vm_compute; repeat split; discriminate|]); cbn; tauto.
  - vm_compute. repeat (apply NoDup_cons; [cbn; intuition congruence|]). apply NoDup_nil.
  - intros c. destruct c; vm_compute; split; discriminate.
Qed.
Lemma ex_in_range : Forall obs_in_range (e_obs ex_epoch).
Proof. cbn [ex_epoch e_obs ex_obs]. repeat (apply Forall_cons; [unfold obs_in_range, flag, byte; cbn; repeat split; lia|]). apply Forall_nil. Qed.
Example C65_nonvacuous ty : ty = 4 \/ ty = 5 ->
  carriers_ok ex_carrier /\ (forall k, ex_code_of (ex_num_of k) = k) /\ fcn_map_ok ex_fcns /\ maps_agree ex_fcns (rc_fcns ex_rc) /\
  epoch_ok ex_code_of (e_obs ex_epoch) /\ Forall obs_in_range (e_obs ex_epoch) /\
  chain ex_carrier ex_code_of ex_num_of ex_fcns ex_rc (ex_cfg ty) ex_epoch
  = Some (if ty =? 5 then
      [Some [mkpobs 1061728394 111588407 107 3217 229 180 9 15 5 0; mkpobs 1061728562 86952019 117 2507 115 160 9 15 5 6; mkpobs 1200006172 126121499 250 (-1752) 127 172 5 11 12 0];
       Some [mkpobs 999999975 106911459 99 (-5354) 104 200 12 15 7 16]]
    else
      [Some [mkpobs 1061728394 111588407 107 0 0 180 9 7 5 0; mkpobs 1061728562 86952019 117 0 0 160 9 7 5 6; mkpobs 1200006172 126121499 250 0 0 172 5 3 12 0];
       Some [mkpobs 999999975 106911459 99 0 0 200 12 7 7 16]]).
Proof.
  intros TY. split; [exact ex_carriers|]. split; [exact ex_numbering|]. split; [exact ex_map_ok|]. split; [intros s Hs; right; left; reflexivity|]. split; [exact ex_epoch_ok|]. split; [exact ex_in_range|].
  destruct TY as [-> | ->]; vm_compute; reflexivity.
Qed.

(** What is lost.  A C/N0 of 63.5 dB-Hz or more does not fit the 6-bit field and is received as unknown (0): *)
Theorem C65_strong_signal_refuted :
  chain ex_carrier ex_code_of ex_num_of ex_fcns ex_rc (ex_cfg 5) (mkepoch 1 (mkohdr 345600200 0 2190 16) [mkpobs 1061728394 111588407 107 3217 229 254 9 15 5 0])
  = Some [Some [mkpobs 1061728394 111588407 107 3217 229 0 9 15 5 0]].
Proof. vm_compute. reflexivity. Qed.
(** a carrier phase whose (arbitrary) ambiguity puts it more than 1171 m away from the pseudorange is dropped: *)
Theorem C65_phase_ambiguity_refuted :
  chain ex_carrier ex_code_of ex_num_of ex_fcns ex_rc (ex_cfg 5) (mkepoch 1 (mkohdr 345600200 0 2190 16) [mkpobs 1061728394 111600000 107 3217 229 200 9 15 5 0])
  = Some [Some [mkpobs 1061728394 0 0 3217 229 200 9 9 5 0]].
Proof. vm_compute. reflexivity. Qed.
(** two pseudoranges of a satellite 300 m apart: one is dropped *)
Theorem C65_far_code_refuted :
  chain ex_carrier ex_code_of ex_num_of ex_fcns ex_rc (ex_cfg 5) (mkepoch 1 (mkohdr 345600200 0 2190 16)
    [mkpobs 1061728394 111588407 107 3217 229 200 9 1 5 0; mkpobs 1061743394 86952019 117 2507 115 160 9 1 5 6])
  = Some [Some [mkpobs 1061743394 0 0 0 0 160 9 1 5 6]].
Proof. vm_compute. reflexivity. Qed.
(** a pseudorange of 255 light-milliseconds (76447 km) or more: the observation is lost *)
Theorem C65_long_range_refuted :
  chain ex_carrier ex_code_of ex_num_of ex_fcns ex_rc (ex_cfg 5) (mkepoch 1 (mkohdr 345600200 0 2190 16) [mkpobs 3823000000 0 0 0 0 200 9 1 5 0]) = Some [Some []].
Proof. vm_compute. reflexivity. Qed.

Print Assumptions C65_obs_to_msm_and_back.
Print Assumptions C65_nonvacuous.
Print Assumptions C65_strong_signal_refuted.
Print Assumptions C65_phase_ambiguity_refuted.
Print Assumptions C65_far_code_refuted.
Print Assumptions C65_long_range_refuted.
