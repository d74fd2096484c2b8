(** Model of sbp_buffer_to_msm and its helpers: c/gnss_converters_extra/src/sbp_rtcm3.c:503-545, 548-620, 665-719: which observation ends up in
    which cell of which message, and the message headers.  The message structs keep the SBP observation written to each signal cell and the
    list of observations written to each satellite entry (latest first) in place of the numbers computed from them. *)
From Verif Require Import Base RtcmMsm_model Signals_model Time_model Sbp2Rtcm_model.

(** code_to_constellation (libswiftnav, external): asserts that the code is valid *)
Definition cons_of (k : code) : option cons :=
  match k with
  | CODE_INVALID => None
  | GPS_L1CA | GPS_L1P | GPS_L2P | GPS_L2CM | GPS_L2CL | GPS_L2CX | GPS_L5I | GPS_L5Q | GPS_L5X | GPS_L1CI | GPS_L1CQ | GPS_L1CX => Some cGPS
  | GLO_L1OF | GLO_L1P | GLO_L2OF | GLO_L2P => Some cGLO
  | GAL_E1C | GAL_E1B | GAL_E1X | GAL_E6C | GAL_E6B | GAL_E6X | GAL_E7I | GAL_E7Q | GAL_E7X | GAL_E8I | GAL_E8Q | GAL_E8X
  | GAL_E5I | GAL_E5Q | GAL_E5X => Some cGAL
  | SBAS_L1CA | SBAS_L5I | SBAS_L5Q | SBAS_L5X => Some cSBAS
  | QZS_L1CA | QZS_L2CM | QZS_L2CL | QZS_L2CX | QZS_L5I | QZS_L5Q | QZS_L5X | QZS_L1CI | QZS_L1CQ | QZS_L1CX => Some cQZS
  | _ => Some cBDS
  end.
(** enum rtcm_constellation_e, messages.h:38-47 *)
Definition cons_order : list cons := [cGPS; cSBAS; cGLO; cBDS; cQZS; cGAL].

(** rtcm_msm_message under construction *)
Record omsg := mkomsg { om_hdr : mhdr; om_sats : list (list pobs); om_sigs : list (option pobs) }.
Definition with_hdr (m : omsg) (h : mhdr) : omsg := mkomsg h (om_sats m) (om_sigs m).
Definition with_multiple (m : omsg) (b : Z) : omsg :=
  let h := om_hdr m in
  with_hdr m (mkmhdr (mh_num h) (mh_stn h) (mh_tow h) b (mh_iods h) (mh_reserved h) (mh_steering h) (mh_ext_clock h) (mh_div h) (mh_smooth h)
    (sat_mask h) (sig_mask h) (cell_mask h)).
(** converter settings: state->msm_type (4 or 5), the leap seconds if known *)
Record ocfg := mkocfg { c_type : Z; c_leap : option Z }.

Section Msm.
(** decoding of the u8 signal code (enum code_e of libswiftnav, external); an unknown value is CODE_INVALID *)
Variable code_of : Z -> code.

(** msm_init_obs_message: sbp_rtcm3.c:504-545; None: the assertion in compute_glo_tow_ms fails *)
Definition msm_init (cfg : ocfg) (e : epoch) (c : cons) : option omsg :=
  let tow := oh_tow (e_hdr e) in
  match (match c with cGLO => compute_glo_tow_ms tow (c_leap cfg) | cBDS => Some (gps_tow_to_beidou_tow tow) | _ => Some tow end) with
  | None => None
  | Some t => Some (mkomsg (mkmhdr (to_msm_msg_num c (c_type cfg)) (Z.land (e_sender e) 4095) t 1 0 0 1 0 0 0
                              (repeat false 64) (repeat false 32) (repeat false 64)) (repeat [] 32) (repeat None 64))
  end.
Definition setm (f : cons -> omsg) (c : cons) (m : omsg) : cons -> omsg := fun c' => if cons_eqb c c' then m else f c'.
(** the three loops over the buffer: sbp_rtcm3.c:672-698; None: assertion failure or access outside an array *)
Definition to_header (o : pobs) (m : omsg) : option omsg :=
  match msm_add_to_header (om_hdr m) (code_of (o_code o)) (o_sat o) with AddUb => None | Added h | NotAdded h => Some (with_hdr m h) end.
Definition to_cell_mask (o : pobs) (m : omsg) : option omsg :=
  match msm_add_to_cell_mask (om_hdr m) (code_of (o_code o)) (o_sat o) with AddUb => None | Added h | NotAdded h => Some (with_hdr m h) end.
(** sbp_obs_to_msm_signal_data: sbp_rtcm3.c:548-620 *)
Definition to_signal_data (o : pobs) (m : omsg) : option omsg :=
  let h := om_hdr m in
  match prn_to_msm_sat_index h (o_sat o), code_to_msm_signal_index h (code_of (o_code o)) with
  | Some sat_index, Some signal_index =>
      let cell_id := (sat_index * num_sigs h + signal_index) mod 256 in
      if 64 <=? cell_id then None
      else if negb (znth false cell_id (cell_mask h)) then Some m
      else if 32 <=? sat_index then None
      else Some (mkomsg h (zupd sat_index (fun l => o :: l) (om_sats m)) (zupd (count_mask cell_id (cell_mask h)) (fun _ => Some o) (om_sigs m)))
  | _, _ => None
  end.
Fixpoint each (f : pobs -> omsg -> option omsg) (os : list pobs) (ms : cons -> omsg) : option (cons -> omsg) :=
  match os with
  | [] => Some ms
  | o :: os => match cons_of (code_of (o_code o)) with
               | None => None
               | Some c => match f o (ms c) with None => None | Some m => each f os (setm ms c m) end
               end
  end.
(** sbp_rtcm3.c:700-709, on the constellations in descending order *)
Fixpoint mark_last (cs : list cons) (ms : cons -> omsg) : cons -> omsg :=
  match cs with [] => ms | c :: cs => if 0 <? num_sats (om_hdr (ms c)) then setm ms c (with_multiple (ms c) 0) else mark_last cs ms end.
(** message numbers accepted by encode_rtcm3_payload (sbp_rtcm3.c:143-158) *)
Definition encodable (num : Z) : bool := existsb (Z.eqb num) [1074; 1084; 1094; 1114; 1124; 1075; 1085; 1095; 1115; 1125].
(** sbp_rtcm3.c:711-719 *)
Fixpoint emit (cs : list cons) (ms : cons -> omsg) : option (list omsg) :=
  match cs with
  | [] => Some []
  | c :: cs => if 0 <? num_sats (om_hdr (ms c)) then
                 if encodable (mh_num (om_hdr (ms c))) then match emit cs ms with Some l => Some (ms c :: l) | None => None end else None
               else emit cs ms
  end.
(** sbp_buffer_to_msm: sbp_rtcm3.c:665-719 *)
Definition buffer_to_msm (cfg : ocfg) (e : epoch) : option (list omsg) :=
  match msm_init cfg e cGPS, msm_init cfg e cSBAS, msm_init cfg e cGLO, msm_init cfg e cBDS, msm_init cfg e cQZS, msm_init cfg e cGAL with
  | Some m0, Some m1, Some m2, Some m3, Some m4, Some m5 =>
      let ms0 c := match c with cGPS => m0 | cSBAS => m1 | cGLO => m2 | cBDS => m3 | cQZS => m4 | cGAL => m5 | cINVALID => m0 end in
      match each to_header (e_obs e) ms0 with
      | None => None
      | Some ms1 => match each to_cell_mask (e_obs e) ms1 with
                    | None => None
                    | Some ms2 => match each to_signal_data (e_obs e) ms2 with
                                  | None => None
                                  | Some ms3 => emit cons_order (mark_last (rev cons_order) ms3)
                                  end
                    end
      end
  | _, _, _, _, _, _ => None
  end.
End Msm.
