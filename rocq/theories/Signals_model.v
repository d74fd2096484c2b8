(** Signal and satellite numbering: c/gnss_converters/src/rtcm3_utils.c:41-400, 540-705; GLONASS channel maps
    c/gnss_converters/src/rtcm3_sbp.c:110-120, 1159-1183 (the same functions again in c/gnss_converters_extra/src/sbp_rtcm3.c:55-60, 329-377).

    libswiftnav's [code_t] is represented by an enumeration of the codes that occur in the converters; the PRN ranges are
    libswiftnav's (swiftnav/signal.h, external to /repo). *)
From Verif Require Import Base RtcmLegacy_model RtcmMsm_model RtcmMsm_spec.

Inductive code :=
| GPS_L1CA | GPS_L1P | GPS_L1CI | GPS_L1CQ | GPS_L1CX | GPS_L2CM | GPS_L2CL | GPS_L2CX | GPS_L2P | GPS_L5I | GPS_L5Q | GPS_L5X
| SBAS_L1CA | SBAS_L5I | SBAS_L5Q | SBAS_L5X
| GLO_L1OF | GLO_L2OF | GLO_L1P | GLO_L2P
| GAL_E1B | GAL_E1C | GAL_E1X | GAL_E6B | GAL_E6C | GAL_E6X | GAL_E7I | GAL_E7Q | GAL_E7X | GAL_E8I | GAL_E8Q | GAL_E8X | GAL_E5I | GAL_E5Q | GAL_E5X
| QZS_L1CA | QZS_L1CI | QZS_L1CQ | QZS_L1CX | QZS_L2CM | QZS_L2CL | QZS_L2CX | QZS_L5I | QZS_L5Q | QZS_L5X
| BDS2_B1 | BDS2_B2 | BDS3_B1CI | BDS3_B1CQ | BDS3_B1CX | BDS3_B3I | BDS3_B3Q | BDS3_B3X | BDS3_B5I | BDS3_B5Q | BDS3_B5X
| BDS3_B7I | BDS3_B7Q | BDS3_B7X
| CODE_INVALID.
Definition code_eq_dec (a b : code) : {a = b} + {a <> b}. Proof. decide equality. Defined.
Definition code_eqb (a b : code) : bool := if code_eq_dec a b then true else false.

(** get_msm_gps_code: rtcm3_utils.c:52-87 *)
Definition get_msm_gps_code (id : Z) : code :=
  match id with
  | 2 => GPS_L1CA | 3 => GPS_L1P | 4 => GPS_L1P | 9 => GPS_L2P | 10 => GPS_L2P | 15 => GPS_L2CM | 16 => GPS_L2CL | 17 => GPS_L2CX
  | 22 => GPS_L5I | 23 => GPS_L5Q | 24 => GPS_L5X | 30 => GPS_L1CI | 31 => GPS_L1CQ | 32 => GPS_L1CX | _ => CODE_INVALID
  end.
(** get_msm_glo_code: rtcm3_utils.c:89-103 *)
Definition get_msm_glo_code (id : Z) : code :=
  match id with 3 => GLO_L1P | 2 => GLO_L1OF | 9 => GLO_L2P | 8 => GLO_L2OF | _ => CODE_INVALID end.
(** get_msm_gal_code: rtcm3_utils.c:105-146 *)
Definition get_msm_gal_code (id : Z) : code :=
  match id with
  | 2 => GAL_E1C | 4 => GAL_E1B | 5 => GAL_E1X | 8 => GAL_E6C | 10 => GAL_E6B | 11 => GAL_E6X | 14 => GAL_E7I | 15 => GAL_E7Q
  | 16 => GAL_E7X | 18 => GAL_E8I | 19 => GAL_E8Q | 20 => GAL_E8X | 22 => GAL_E5I | 23 => GAL_E5Q | 24 => GAL_E5X | _ => CODE_INVALID
  end.
(** get_msm_sbas_code: rtcm3_utils.c:148-162 *)
Definition get_msm_sbas_code (id : Z) : code :=
  match id with 2 => SBAS_L1CA | 22 => SBAS_L5I | 23 => SBAS_L5Q | 24 => SBAS_L5X | _ => CODE_INVALID end.
(** get_msm_qzs_code: rtcm3_utils.c:164-193 *)
Definition get_msm_qzs_code (id : Z) : code :=
  match id with
  | 2 => QZS_L1CA | 15 => QZS_L2CM | 16 => QZS_L2CL | 17 => QZS_L2CX | 22 => QZS_L5I | 23 => QZS_L5Q | 24 => QZS_L5X
  | 30 => QZS_L1CI | 31 => QZS_L1CQ | 32 => QZS_L1CX | _ => CODE_INVALID
  end.
(** get_msm_bds_code: rtcm3_utils.c:195-242 *)
Definition get_msm_bds_code (id : Z) : code :=
  match id with
  | 2 => BDS2_B1 | 8 => BDS3_B3I | 9 => BDS3_B3Q | 10 => BDS3_B3X | 14 => BDS2_B2 | 22 => BDS3_B5I | 23 => BDS3_B5Q | 24 => BDS3_B5X
  | 25 => BDS3_B7I | 30 => BDS3_B1CI | 31 => BDS3_B1CQ | 32 => BDS3_B1CX | _ => CODE_INVALID
  end.
(** the switch of msm_signal_to_code: rtcm3_utils.c:258-281 *)
Definition get_msm_code (c : cons) (id : Z) : code :=
  match c with
  | cGPS => get_msm_gps_code id | cSBAS => get_msm_sbas_code id | cGLO => get_msm_glo_code id | cBDS => get_msm_bds_code id
  | cQZS => get_msm_qzs_code id | cGAL => get_msm_gal_code id | cINVALID => CODE_INVALID
  end.
(** msm_signal_to_code: rtcm3_utils.c:250-282; None: an assertion of find_nth_mask_value fails *)
Definition msm_signal_to_code (h : mhdr) (signal_index : Z) : option code :=
  match find_nth_mask_value 32 (sig_mask h) (signal_index + 1) with
  | Some p => Some (get_msm_code (to_constellation (mh_num h)) (p + 1))
  | None => None
  end.
(** the search loops of code_to_msm_signal_id, [n] iterations left *)
Fixpoint search_code (c : cons) (k : code) (i : Z) (n : nat) : Z :=
  match n with
  | O => 32
  | S n => if code_eqb (get_msm_code c (i + 1)) k then i else search_code c k (i + 1) n
  end.
(** code_to_msm_signal_id: rtcm3_utils.c:304-347; None: one of its assertions fails *)
Definition code_to_msm_signal_id (k : code) (c : cons) : option Z :=
  if cons_eqb c cINVALID then None else if code_eqb k CODE_INVALID then None else Some (search_code c k 0 32).
(** code_to_msm_signal_index: rtcm3_utils.c:290-296 *)
Definition code_to_msm_signal_index (h : mhdr) (k : code) : option Z :=
  match code_to_msm_signal_id k (to_constellation (mh_num h)) with
  | Some id => Some (count_mask id (sig_mask h))
  | None => None
  end.

(** prn_table: rtcm3_utils.c:36-50 with libswiftnav's constants {GPS,SBAS,GLO,BDS,QZS,GAL}_FIRST_PRN and NUM_SATS_... *)
Definition first_prn (c : cons) : Z := match c with cSBAS => 120 | cQZS => 193 | _ => 1 end.
Definition prn_count (c : cons) : Z :=
  match c with cGPS => 32 | cSBAS => 39 | cGLO => 28 | cBDS => 63 | cQZS => 10 | cGAL => 36 | cINVALID => 0 end.
Definition PRN_INVALID : Z := 0.
(** prn_valid: rtcm3_utils.c:349-354 *)
Definition prn_valid (c : cons) (prn : Z) : bool :=
  negb (cons_eqb c cINVALID) && (first_prn c <=? prn) && (prn <? first_prn c + prn_count c).
(** msm_sat_to_prn: rtcm3_utils.c:362-373 *)
Definition msm_sat_to_prn (h : mhdr) (satellite_index : Z) : option Z :=
  let c := to_constellation (mh_num h) in
  if cons_eqb c cINVALID then Some PRN_INVALID
  else match find_nth_mask_value 64 (sat_mask h) (satellite_index + 1) with
       | Some p => let prn := (first_prn c + p) mod 256 in Some (if prn_valid c prn then prn else PRN_INVALID)
       | None => None
       end.
(** prn_to_msm_sat_id: rtcm3_utils.c:394-397; None: the assertion fails *)
Definition prn_to_msm_sat_id (prn : Z) (c : cons) : option Z :=
  if prn_valid c prn then Some (prn - first_prn c) else None.
(** prn_to_msm_sat_index: rtcm3_utils.c:381-386 *)
Definition prn_to_msm_sat_index (h : mhdr) (prn : Z) : option Z :=
  match prn_to_msm_sat_id prn (to_constellation (mh_num h)) with
  | Some id => Some (count_mask id (sat_mask h))
  | None => None
  end.
(** to_msm_msg_num: rtcm3_utils.c:573-596 *)
Definition to_msm_msg_num (c : cons) (ty : Z) : Z :=
  if ty =? 0 then 0
  else match c with
       | cGPS => 1070 + ty | cGLO => 1080 + ty | cGAL => 1090 + ty | cSBAS => 1100 + ty | cQZS => 1110 + ty | cBDS => 1120 + ty | cINVALID => 0
       end.

Definition set_sat (h : mhdr) (i : Z) : mhdr :=
  mkmhdr (mh_num h) (mh_stn h) (mh_tow h) (mh_multiple h) (mh_iods h) (mh_reserved h) (mh_steering h) (mh_ext_clock h) (mh_div h)
    (mh_smooth h) (zupd i (fun _ => true) (sat_mask h)) (sig_mask h) (cell_mask h).
Definition set_sig (h : mhdr) (i : Z) : mhdr :=
  mkmhdr (mh_num h) (mh_stn h) (mh_tow h) (mh_multiple h) (mh_iods h) (mh_reserved h) (mh_steering h) (mh_ext_clock h) (mh_div h)
    (mh_smooth h) (sat_mask h) (zupd i (fun _ => true) (sig_mask h)) (cell_mask h).
Definition set_cell (h : mhdr) (i : Z) : mhdr :=
  mkmhdr (mh_num h) (mh_stn h) (mh_tow h) (mh_multiple h) (mh_iods h) (mh_reserved h) (mh_steering h) (mh_ext_clock h) (mh_div h)
    (mh_smooth h) (sat_mask h) (sig_mask h) (zupd i (fun _ => true) (cell_mask h)).
Definition MSM_MAX_CELLS : Z := 64.
(** result of the header builders: the returned bool with the new header, or undefined behaviour / failed assertion *)
Inductive added := Added (h : mhdr) | NotAdded (h : mhdr) | AddUb.
(** msm_add_to_header: rtcm3_utils.c:620-664.  Accessing signal_mask[32] (unsupported signal) is AddUb. *)
Definition msm_add_to_header (h : mhdr) (k : code) (prn : Z) : added :=
  if negb (num_cells h =? 0) then AddUb
  else let c := to_constellation (mh_num h) in
  if code_eqb k CODE_INVALID then NotAdded h
  else if negb (prn_valid c prn) then NotAdded h
  else match prn_to_msm_sat_id prn c, code_to_msm_signal_id k c with
  | Some sat_id, Some signal_id =>
      let ns := num_sats h in let ng := num_sigs h in
      let with_sat := if znth false sat_id (sat_mask h) then Some (h, ns)
                      else if (ns + 1) * ng <=? MSM_MAX_CELLS then Some (set_sat h sat_id, ns + 1) else None in
      match with_sat with
      | None => NotAdded h
      | Some (h1, ns1) =>
          if 32 <=? signal_id then AddUb
          else if znth false signal_id (sig_mask h1) then Added h1
          else if ns1 * (ng + 1) <=? MSM_MAX_CELLS then Added (set_sig h1 signal_id) else NotAdded h1
      end
  | _, _ => AddUb
  end.
(** msm_add_to_cell_mask: rtcm3_utils.c:668-705 *)
Definition msm_add_to_cell_mask (h : mhdr) (k : code) (prn : Z) : added :=
  let ng := num_sigs h in
  if negb (0 <? ng) then AddUb
  else let c := to_constellation (mh_num h) in
  if code_eqb k CODE_INVALID then NotAdded h
  else if negb (prn_valid c prn) then NotAdded h
  else match prn_to_msm_sat_id prn c with
  | None => AddUb
  | Some sat_id =>
      if negb (znth false sat_id (sat_mask h)) then NotAdded h
      else match code_to_msm_signal_id k c with
      | None => AddUb
      | Some signal_id =>
          if 32 <=? signal_id then AddUb
          else if negb (znth false signal_id (sig_mask h)) then NotAdded h
          else match prn_to_msm_sat_index h prn, code_to_msm_signal_index h k with
          | Some si, Some gi =>
              let cell_id := (si * ng + gi) mod 256 in
              if negb (cell_id <? MSM_MAX_CELLS) then AddUb
              else if znth false cell_id (cell_mask h) then AddUb
              else Added (set_cell h cell_id)
          | _, _ => AddUb
          end
      end
  end.

(** *** GLONASS frequency channels *)
Definition MSM_GLO_FCN_OFFSET : Z := 7.
Definition SBP_GLO_FCN_OFFSET : Z := 8.
Definition MSM_GLO_MAX_FCN : Z := 13.
Definition SBP_GLO_FCN_UNKNOWN : Z := 0.
(** sbp_fcn_to_rtcm: rtcm3_sbp.c:1161-1171 = sbp_rtcm3.c:331-341; the int result is converted to s8, then to u8 *)
Definition sbp_fcn_to_rtcm (f : Z) : Z :=
  if f =? SBP_GLO_FCN_UNKNOWN then MSM_GLO_FCN_UNKNOWN
  else let r := let x := (f + MSM_GLO_FCN_OFFSET - SBP_GLO_FCN_OFFSET) mod 256 in if x <? 128 then x else x - 256 in
       if (r <? 0) || (MSM_GLO_MAX_FCN <? r) then MSM_GLO_FCN_UNKNOWN else r.
(** initial map: rtcm3_sbp.c:117-119; the array has NUM_SATS_GLO + 1 entries *)
Definition fcn_map0 : list Z := repeat MSM_GLO_FCN_UNKNOWN 29.
(** rtcm2sbp_set_glo_fcn: rtcm3_sbp.c:1173-1183 *)
Definition set_glo_fcn (map : list Z) (sat fcn : Z) : list Z :=
  if (sat <? 1) || (1 + 28 <=? sat) then map else zupd sat (fun _ => sbp_fcn_to_rtcm fcn) map.
(** msm_get_glo_fcn: rtcm3_utils.c:549-567.  None: access outside the map or failed assertion; otherwise (returned bool, value) *)
Definition msm_get_glo_fcn (h : mhdr) (sat : Z) (from_sat_info : Z) (map : list Z) : option (bool * Z) :=
  if negb (cons_eqb (to_constellation (mh_num h)) cGLO) then Some (false, 0)
  else if from_sat_info =? MSM_GLO_FCN_UNKNOWN then
    match msm_sat_to_prn h sat with
    | Some prn => if (0 <=? prn) && (prn <? len map) then let f := znth 0 prn map in Some (f <=? MSM_GLO_MAX_FCN, f) else None
    | None => None
    end
  else Some (from_sat_info <=? MSM_GLO_MAX_FCN, from_sat_info).
