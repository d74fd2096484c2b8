(** UBX navigation messages to SBP: HNR-PVT, NAV-ATT, NAV-PVT, NAV-VELECEF, NAV-SAT, NAV-STATUS and MON-HW in c/gnss_converters/src/ubx_sbp.c:405-558, 971-1170, 1285-1365.
    The decoders are those of UbxMsg_model.v and UbxVar_model.v.  A frame is what read_ubx_frame returns: class, id, two length bytes, payload.
    Arithmetic is IEEE double (single where the source casts to float).  None: undefined behaviour (overflow of a signed multiplication). *)
From Flocq Require Import Core IEEE754.Binary IEEE754.Bits.
From Verif Require Import Base Double_model Bytestream_model Esf_model Ixcom_model Signals_model UbxMsg_model UbxVar_model UbxObs_model SbpEph_model.
Open Scope Z_scope.

(** sbp_msg_orient_euler_t *)
Record orient := mkorient { or_tow : Z; or_roll : Z; or_pitch : Z; or_yaw : Z; or_racc : binary32; or_pacc : binary32; or_yacc : binary32; or_flags : Z }.
(** SBP messages handed to the callback *)
Inductive uout :=
| UPos (tow : Z) (lat lon height : dbl) (h_acc v_acc n_sats flags : Z)
| UVel (tow x y z acc n_sats flags : Z)
| UOrient (o : orient)
| UAzEl (l : list (Z * code * Z * Z))      (* satellite, code, azimuth, elevation *)
| UMeas (l : list (Z * code * Z))          (* satellite, code, cn0 *)
| UFwd (source protocol : Z) (payload : list Z)
| UOffset (weeks ms us flags : Z).
(** static struct ubx_pvt_state pvt_state: ubx_sbp.c:104-111, one for all converters of the process *)
Record pvt := mkpvt { pv_nsats : Z; pv_flags : Z; pv_fix : Z }.
Definition pvt0 : pvt := mkpvt 0 0 0.
(** the fields of struct ubx_sbp_state these handlers use (ubx_sbp.h:67-89).  Times are (wn, tow); None: GPS_TIME_UNKNOWN *)
Record uinst := mkuinst { ui_hnr : bool; ui_orient : orient; ui_obs : option (Z * dbl); ui_imu : option (Z * dbl); ui_week : bool }.
Definition fzero : binary32 := B754_zero 24 128 false.
Definition orient0 : orient := mkorient 0 0 0 0 fzero fzero fzero 0.
(** ubx_sbp_init: ubx_sbp.c:1367-1389 *)
Definition uinst0 : uinst := mkuinst false orient0 None None false.

(** the literals 1e-7, 1e-3 and 1e-5 *)
Definition d_1em7 : dbl := dofbits 0x3e7ad7f29abcaf48.
Definition d_1em3 : dbl := dofbits 0x3f50624dd2f1a9fc.
Definition d_1em5 : dbl := dofbits 0x3ee4f8b588e368f1.
Definition s32_ok (z : Z) : bool := (- 2 ^ 31 <=? z) && (z <? 2 ^ 31).
(** int * 10; overflow is undefined *)
Definition times10 (z : Z) : option Z := if s32_ok (10 * z) then Some (10 * z) else None.
Definition acc_u16 (z : Z) : Z := if 65535 <? z then 65535 else z.

(** fill_msg_orient_euler: ubx_sbp.c:405-428 *)
Definition fill_orient (g : pvt) (m : nav_att) : option orient :=
  match times10 (nav_att_roll m), times10 (nav_att_pitch m), times10 (nav_att_heading m) with
  | Some r, Some p, Some y =>
      Some (mkorient (nav_att_i_tow m) r p y (f32 (dmul (dofZ (nav_att_acc_roll m)) d_1em5)) (f32 (dmul (dofZ (nav_att_acc_pitch m)) d_1em5))
                     (f32 (dmul (dofZ (nav_att_acc_heading m)) d_1em5)) (if (pv_fix g =? 1) || (pv_fix g =? 4) then 1 else 0))
  | _, _, _ => None
  end.
(** the flags of fill_msg_pos_llh: ubx_sbp.c:454-488 *)
Definition pvt_flags (fix_type flags : Z) : Z :=
  let mode :=
    if (fix_type =? 0) || (fix_type =? 5) then 0
    else if fix_type =? 1 then 5
    else if (fix_type =? 2) || (fix_type =? 3) || (fix_type =? 4) then
      if Z.land flags 0x02 =? 0 then 1
      else let c := Z.land flags 0xC0 in if c =? 0 then 2 else if c =? 0x40 then 3 else if c =? 0x80 then 4 else 0
    else 0 in
  if (fix_type =? 1) || (fix_type =? 4) then Z.lor mode 8 else mode.
(** fill_msg_pos_llh: ubx_sbp.c:430-493 *)
Definition fill_pos (m : nav_pvt) : uout * pvt :=
  let fl := pvt_flags (nav_pvt_fix_type m) (nav_pvt_flags m) in
  (UPos (nav_pvt_i_tow m) (dmul d_1em7 (dofZ (nav_pvt_lat m))) (dmul d_1em7 (dofZ (nav_pvt_lon m))) (dmul d_1em3 (dofZ (nav_pvt_height m)))
        (acc_u16 (nav_pvt_horizontal_accuracy m)) (acc_u16 (nav_pvt_vertical_accuracy m)) (nav_pvt_num_sats m) fl,
   mkpvt (nav_pvt_num_sats m) fl (nav_pvt_fix_type m)).
(** fill_msg_vel_ecef: ubx_sbp.c:495-519; accuracy is a u16 *)
Definition fill_vel (g : pvt) (m : nav_velecef) : option uout :=
  match times10 (nav_velecef_ecefVX m), times10 (nav_velecef_ecefVY m), times10 (nav_velecef_ecefVZ m) with
  | Some x, Some y, Some z => Some (UVel (nav_velecef_i_tow m) x y z (nav_velecef_speed_acc m mod 65536) (pv_nsats g) (Z.lor (if 0 <? pv_fix g then 5 else 0) 8))
  | _, _, _ => None
  end.
(** fill_msg_pos_llh_hnr: ubx_sbp.c:521-539 *)
Definition fill_pos_hnr (g : pvt) (m : hnr_pvt) : uout :=
  UPos (hnr_pvt_i_tow m) (dmul d_1em7 (dofZ (hnr_pvt_lat m))) (dmul d_1em7 (dofZ (hnr_pvt_lon m))) (dmul d_1em3 (dofZ (hnr_pvt_height m)))
       (acc_u16 (hnr_pvt_horizontal_accuracy m)) (acc_u16 (hnr_pvt_vertical_accuracy m)) (pv_nsats g) (pv_flags g).

(** ** NAV-SAT *)
(** lround((double)azim / 2.0) as u8, lround((double)cno * 4.0) as u8, of one satellite: ubx_sbp.c:1060-1077; None never happens *)
Definition azel_of (d : nav_sat_data) : option (Z * code * Z * Z) :=
  match dround (ddiv (dofZ (ns_azim d)) (dofZ 2)) with
  | Some a => Some (ns_sv_id d, convert_ubx_gnssid_sigid (ns_gnss_id d) 0, a mod 256, ns_elev d)
  | None => None
  end.
Definition meas_of (d : nav_sat_data) : option (Z * code * Z) :=
  match dround (dmul (dofZ (ns_cno d)) (dofZ 4)) with
  | Some c => Some (ns_sv_id d, convert_ubx_gnssid_sigid (ns_gnss_id d) 0, c mod 256)
  | None => None
  end.
(** SBP_MSG_SV_AZ_EL_AZEL_MAX and SBP_MSG_MEASUREMENT_STATE_STATES_MAX of libsbp (255 bytes of 4 and of 3) *)
Definition AZEL_MAX : Z := 63.
Definition STATES_MAX : Z := 85.
(** the loop and the final sends: ubx_sbp.c:1055-1106; [az], [ms]: the messages under construction *)
Fixpoint sat_loop (l : list nav_sat_data) (az : list (Z * code * Z * Z)) (ms : list (Z * code * Z)) : option (list uout) :=
  match l with
  | [] => Some ((if 0 <? len az then [UAzEl az] else []) ++ (if 0 <? len ms then [UMeas ms] else []))
  | d :: l =>
      match azel_of d, meas_of d with
      | Some a, Some c =>
          let az := az ++ [a] in let ms := ms ++ [c] in
          let fa := AZEL_MAX <? len az + 1 in let fm := STATES_MAX <? len ms + 1 in
          match sat_loop l (if fa then [] else az) (if fm then [] else ms) with
          | Some out => Some ((if fa then [UAzEl az] else []) ++ (if fm then [UMeas ms] else []) ++ out)
          | None => None
          end
      | _, _ => None
      end
  end.
(** the loop runs over num_svs, at most NAV_DATA_MAX_COUNT, of the decoded entries *)
Definition handle_nav_sat (m : nav_sat) : option (list uout) := sat_loop (take (Z.min (nst_num_svs m) NAV_DATA_MAX_COUNT) (nst_data m)) [] [].

(** ** MON-HW *)
(** sizeof(msg->fwd_payload) of libsbp (SBP_MSG_FWD_FWD_PAYLOAD_MAX) *)
Definition FWD_MAX : Z := 253.
(** fill_msg_fwd, handle_mon_hw: ubx_sbp.c:541-558, 1285-1293 *)
Definition handle_mon_hw (frame : list Z) : list uout :=
  if FWD_MAX <? len frame then [] else if 0 <? len frame then [UFwd 0 1 frame] else [].

(** ** NAV-STATUS *)
Section Nav.
(** [mw tow ref]: the week gps_time_match_weeks_safe (libswiftnav) gives the time of week [tow] next to [ref]; None: it fails *)
Variable mw : dbl -> Z * dbl -> option Z.
Definition fix_good (m : nav_status) : bool := ((nav_status_fix_type m =? 3) || (nav_status_fix_type m =? 4)) && negb (Z.land (nav_status_status_flags m) 1 =? 0).
Definition time_good (m : nav_status) : bool := negb (Z.land (nav_status_status_flags m) 8 =? 0) && negb (Z.land (nav_status_status_flags m) 4 =? 0).
(** handle_nav_status: ubx_sbp.c:1109-1171.  offset.wn and msg->weeks are s16 (libswiftnav, libsbp). *)
Definition to_s16_wrap (z : Z) : Z := let r := z mod 65536 in if r <? 32768 then r else r - 65536.
(** gps_time_valid (libswiftnav): wn >= 0, tow finite, in [0, 604800) *)
Definition gps_time_valid (t : Z * dbl) : bool := (0 <=? fst t) && negb (dltb (snd t) (dofZ 0)) && dltb (snd t) (dofZ 604800).
Definition handle_nav_status (s : uinst) (m : nav_status) : option (uinst * list uout) :=
  let s := if time_good m then mkuinst (ui_hnr s) (ui_orient s) (ui_obs s) (ui_imu s) true else s in
  match fix_good m && time_good m, ui_obs s with
  | true, Some obs =>
      if negb (gps_time_valid obs) then Some (s, []) else
      let tg := norm_week (dmul d_milli (dofZ (nav_status_i_tow m))) in
      match mw tg obs with
      | None => Some (s, [])
      | Some wg =>
          match ui_imu s with
          | None => Some (s, [])
          | Some imu =>
              if negb (gps_time_valid imu) then Some (s, []) else
              let tl := norm_week (dmul d_milli (dofZ (nav_status_msss m))) in
              match mw tl imu with
              | None => Some (s, [])
              | Some wl =>
                  match dround (dmul (dofZ 1000) (dsub tg tl)) with
                  | None => None
                  | Some ms => if s32_ok ms then Some (s, [UOffset (to_s16_wrap (wg - wl)) ms 0 0]) else None
                  end
              end
          end
      end
  | _, _ => Some (s, [])
  end.
(** handle_rxm_rawx sets the time of the last observations: ubx_sbp.c:1198-1202 (the observations: UbxObs_model.v) *)
Definition rawx_time (s : uinst) (m : rawx) : uinst :=
  if negb (rx_num_meas m =? 0) && negb (rx_rcv_wn m =? 0) && ui_week s
  then mkuinst (ui_hnr s) (ui_orient s) (Some (to_s16_wrap (rx_rcv_wn m), dofbits (rx_rcv_tow m))) (ui_imu s) (ui_week s) else s.

(** handle_hnr_pvt: ubx_sbp.c:971-995 *)
Definition handle_hnr_pvt (g : pvt) (s : uinst) (m : hnr_pvt) : option (list uout) :=
  match times10 (hnr_pvt_heading_vehicle m) with
  | None => None
  | Some yaw =>
      let o := ui_orient s in
      Some (if ui_hnr s then [fill_pos_hnr g m;
              UOrient (mkorient (hnr_pvt_i_tow m) (or_roll o) (or_pitch o) yaw (or_racc o) (or_pacc o) (f32 (dmul (dofZ (hnr_pvt_heading_acc m)) d_1em5)) (or_flags o))] else [])
  end.
(** ubx_handle_frame (ubx_sbp.c:1295-1365), the classes of these handlers; [imu]: the inertial time the ESF handlers set, if they did (Esf_model.v) *)
Definition unav_step (g : pvt) (s : uinst) (frame : list Z) : option (pvt * uinst * list uout) :=
  if len frame <? 2 then Some (g, s, [])
  else
  let c := znth 0 0 frame in let id := znth 0 1 frame in
  if (c =? 0x28) && (id =? 0) then
    match decode_hnr_pvt frame with
    | Ok (m, _) => match handle_hnr_pvt g s m with Some out => Some (g, s, out) | None => None end
    | _ => Some (g, s, [])
    end
  else if c =? 1 then
    if id =? 5 then
      match decode_nav_att frame with
      | Ok (m, _) => match fill_orient g m with
                     | Some o => Some (g, mkuinst (ui_hnr s) o (ui_obs s) (ui_imu s) (ui_week s), if ui_hnr s then [] else [UOrient o])
                     | None => None
                     end
      | _ => Some (g, s, [])
      end
    else if id =? 7 then
      match decode_nav_pvt frame with
      | Ok (m, _) => let '(o, g1) := fill_pos m in Some (g1, s, if ui_hnr s then [] else [o])
      | _ => Some (g, s, [])
      end
    else if id =? 0x11 then
      match decode_nav_velecef frame with
      | Ok (m, _) => match fill_vel g m with Some o => Some (g, s, [o]) | None => None end
      | _ => Some (g, s, [])
      end
    else if id =? 0x35 then
      match decode_nav_sat frame with
      | Ok (m, _) => match handle_nav_sat m with Some out => Some (g, s, out) | None => None end
      | _ => Some (g, s, [])
      end
    else if id =? 3 then
      match decode_nav_status frame with
      | Ok (m, _) => match handle_nav_status s m with Some (s1, out) => Some (g, s1, out) | None => None end
      | _ => Some (g, s, [])
      end
    else Some (g, s, [])
  else if (c =? 2) && (id =? 0x15) then
    match decode_rawx frame with
    | Ok (m, _) => Some (g, rawx_time s m, [])
    | _ => Some (g, s, [])
    end
  else if (c =? 0x0A) && (id =? 9) then Some (g, s, handle_mon_hw frame)
  else Some (g, s, []).
(** what happens to a converter: a frame, ubx_set_hnr_flag (ubx_sbp.c:1395-1397), or a new inertial time (set_sbp_imu_time, ubx_sbp.c:823) *)
Inductive uev := EFrame (f : list Z) | EHnr (b : bool) | EImu (t : Z * dbl).
Definition uev_step (g : pvt) (s : uinst) (e : uev) : option (pvt * uinst * list uout) :=
  match e with
  | EFrame f => unav_step g s f
  | EHnr b => Some (g, mkuinst b (ui_orient s) (ui_obs s) (ui_imu s) (ui_week s), [])
  | EImu t => Some (g, mkuinst (ui_hnr s) (ui_orient s) (ui_obs s) (Some t) (ui_week s), [])
  end.
(** several converters in one process: the events carry the number of the converter; the outputs too *)
Fixpoint uproc (g : pvt) (ss : Z -> uinst) (es : list (Z * uev)) : option (pvt * (Z -> uinst) * list (Z * uout)) :=
  match es with
  | [] => Some (g, ss, [])
  | (k, e) :: es =>
      match uev_step g (ss k) e with
      | None => None
      | Some (g1, s1, out) =>
          match uproc g1 (fun j => if j =? k then s1 else ss j) es with
          | None => None
          | Some (g2, ss2, out2) => Some (g2, ss2, map (fun o => (k, o)) out ++ out2)
          end
      end
  end.
End Nav.
