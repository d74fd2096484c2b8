(** ESF-MEAS (odometry, wheel ticks) and ESF-RAW (inertial samples): c/gnss_converters/src/ubx_sbp.c:335-343, 560-970.
    Simplifications: state fields not used by these two handlers are left out (last_obs_time_gnss, weeknumber_set are never read
    by them); last_imu_time_msss is written but never read and is left out; cb_ubx_to_sbp is the list of messages produced, in order. *)
From Flocq Require Import Core IEEE754.Binary IEEE754.Bits.
From Verif Require Import Base UbxVar_model Double_model UbxObs_model.
Open Scope Z_scope.

(** convert24b: ubx_sbp.c:335-343 (argument always < 2^24) *)
Definition convert24b (v : Z) : Z := if 2 ^ 23 - 1 <? v then v - 2 ^ 24 else v.
(** conversions of C: value kept modulo 2^32, as s32 *)
Definition to_s32_wrap (z : Z) : Z := let r := z mod 2 ^ 32 in if r <? 2 ^ 31 then r else r - 2 ^ 32.

(** normalize_gps_time (libswiftnav, not in /repo): "while (tow < 0) tow += WEEK_SECS; while (tow >= WEEK_SECS) tow -= WEEK_SECS".
    The first loop runs at most once for its callers here (their times are above -0.05 s). *)
Fixpoint norm_down (n : nat) (x : dbl) : dbl :=
  match n with O => x | S k => if dltb x (dofZ 604800) then x else norm_down k (dsub x (dofZ 604800)) end.
Definition norm_up (x : dbl) : dbl := if dltb x (dofZ 0) then dadd x (dofZ 604800) else x.
Definition norm_week (x : dbl) : dbl :=
  let y := norm_up x in norm_down (match dfloor y with Some z => Z.to_nat (z / 604800 + 1) | None => O end) y.

(** the literals 0.001, 39.0625e-6, 0.05 and 0.01 *)
Definition d_milli : dbl := dofbits 0x3f50624dd2f1a9fc.
Definition d_tick : dbl := dofbits 0x3f047ae147ae147b.
Definition d_offset : dbl := dofbits 0x3fa999999999999a.
Definition d_centi : dbl := dofbits 0x3f847ae147ae147b.
(** (u64)d *)
Definition to_u64 (x : dbl) : option Z :=
  match dtrunc x with Some z => if (0 <=? z) && (z <? 2 ^ 64) then Some z else None | None => None end.
(** set_odo_time, set_wheeltick_time: ubx_sbp.c:604-628; None: undefined behaviour *)
Definition odo_tow (msss : Z) : option Z := to_u32 (dmul (norm_week (dmul d_milli (dofZ msss))) (dofZ 1000)).
Definition wheel_time (msss : Z) : option Z := to_u64 (dmul (norm_week (dmul d_milli (dofZ msss))) (dofZ 1000000)).

(** SBP messages produced *)
Inductive esf_out :=
| Odometry (tow : option Z) (flags velocity : Z)
| Wheeltick (time : option Z) (flags source ticks : Z)
| ImuAux (temp : Z)
| ImuRaw (tow : option (Z * Z)) (acc_x acc_y acc_z gyr_x gyr_y gyr_z : Z).
(** struct ubx_esf_state: ubx_sbp.h:50-63; the temperature as the decoded 24-bit value in 0.01 degrees *)
Record esf_state := mk_esf { running_odo : Z; last_odo : Z; last_tick : Z; out_tick : Z;
                             running_imu : Z; last_imu : Z; sent : Z; temp : option Z }.
(** ubx_sbp_init: ubx_sbp.c:1370-1389 *)
Definition esf_init : esf_state := mk_esf (-1) 0 (2 ^ 32 - 1) 0 (-1) 0 0 None.

(** is_odo, get_wheeltick_velocity_source: ubx_sbp.c:560-586 *)
Definition is_odo (t : Z) : bool := (6 <=? t) && (t <=? 11).
Definition wheel_source (t : Z) : Z := if t =? 8 then 1 else if t =? 9 then 0 else if t =? 6 then 2 else if t =? 7 then 3 else 0.
(** the loop of handle_esf_meas: ubx_sbp.c:642-706; [tag] is calib_tag (u32) *)
Fixpoint meas_loop (tag : Z) (items : list Z) (s : esf_state) : esf_state * list esf_out :=
  match items with
  | [] => (s, [])
  | d :: r =>
      let data_type := Z.shiftr (Z.land d 0x3F000000) 24 in
      let v := Z.land d 0xFFFFFF in
      if is_odo data_type then
        if negb (running_odo s =? -1) && (1000 <? (tag - running_odo s) mod 2 ^ 64) then
          (mk_esf (-1) (last_odo s) (last_tick s) (out_tick s) (running_imu s) (last_imu s) (sent s) (temp s), [])
        else
          let running := if running_odo s =? -1 then tag else running_odo s + (tag - last_odo s) mod 2 ^ 32 in
          if data_type =? 11 then
            let s' := mk_esf running tag (last_tick s) (out_tick s) (running_imu s) (last_imu s) (sent s) (temp s) in
            let flags := Z.lor (Z.lor 2 (Z.shiftl (Z.shiftr (Z.land v 0x800000) 23) 5)) (Z.shiftl 3 3) in
            let '(s'', out) := meas_loop tag r s' in
            (s'', Odometry (odo_tow running) flags (convert24b v) :: out)
          else
            let tick := Z.land v 0x3FFFFF in
            let reverse := Z.testbit v 23 in
            let ot := if last_tick s =? 2 ^ 32 - 1 then tick
                      else let inc := (tick - last_tick s) mod 2 ^ 32 in
                           to_s32_wrap (if reverse then out_tick s - inc else out_tick s + inc) in
            let s' := mk_esf running tag tick ot (running_imu s) (last_imu s) (sent s) (temp s) in
            let '(s'', out) := meas_loop tag r s' in
            (s'', Wheeltick (wheel_time running) 2 (wheel_source data_type) ot :: out)
      else meas_loop tag r s
  end.
(** handle_esf_meas: ubx_sbp.c:630-706 *)
Definition handle_esf_meas (s : esf_state) (m : esf_meas) : esf_state * list esf_out :=
  if esf_has_calib (em_flags m) then
    meas_loop (match em_calib m with Some c => c | None => 0 end) (take (esf_num_meas (em_flags m)) (em_data m)) s
  else (s, []).

(** ubx_convert_temperature_to_bmi160: ubx_sbp.c:708-720, for 0.01 * v degrees *)
Definition temp_to_bmi160 (x : dbl) : option Z :=
  if negb (dltb x (dofbits 0x4055bfe000000000)) then Some 32767
  else if negb (dltb (dofbits 0xc0447fc000000000) x) then Some (-32767)
  else dtrunc (dmul (dsub x (dofZ 23)) (dofZ 512)).
Definition aux_temp (t : option Z) : Z :=
  match t with
  | None => -32768
  | Some v => match temp_to_bmi160 (dmul d_centi (dofZ v)) with Some z => z | None => 0 end
  end.

(** float_to_s16_clamped and the two scalings of maybe_parse_imu_data: ubx_sbp.c:736-796, single precision (Flocq binary32).
    The raw value (24 bits) times a power of two is exact. *)
Definition fofZ (m e : Z) : binary32 := binary_normalize 24 128 eq_refl eq_refl mode_NE m e false.
Definition fdiv : binary32 -> binary32 -> binary32 := b32_div mode_NE.
Definition fround (f : binary32) : option Z :=
  match f with
  | B754_zero _ _ _ => Some 0
  | B754_finite _ _ s m e _ => Some (zra (cond_Zopp s (Zpos m)) e)
  | _ => None
  end.
Definition fltb (x y : binary32) : bool := match Bcompare 24 128 x y with Some Lt => true | _ => false end.
Definition float_to_s16_clamped (f : binary32) : Z :=
  if fltb f (fofZ (-32768) 0) then -32768
  else if fltb (fofZ 32767 0) f then 32767
  else match fround f with Some z => z | None => 0 end.
Definition scale_gyr (v : Z) : Z := float_to_s16_clamped (fdiv (fofZ v (-12)) (fofbits 0x3b7a0000)).
Definition scale_acc (v : Z) : Z := float_to_s16_clamped (fdiv (fofZ v (-10)) (fofbits 0x3a9ce80a)).

(** set_sbp_imu_time and convert_tow_to_imuraw_time: ubx_sbp.c:722-733, 798-846.  [ts], [ts0] are the u32 sensor time tags of this and of the first
    sample; the tow field carries the time reference flag 1 << 30.  The three *_safe calls of libswiftnav are taken to
    succeed (they fail only for times that are not finite).  gps_time_match_weeks_safe changes the week number only, which is not
    reported.  None: undefined behaviour. *)
Definition sensor_diff (ts ts0 : Z) : Z := let d := to_s32_wrap (ts - ts0) in if d <? 0 then d mod 2 ^ 24 else d.
Definition imu_secs (msss d : Z) : dbl :=
  norm_week (dsub (dadd (dmul d_tick (dofZ d)) (dmul d_milli (dofZ msss))) d_offset).
Definition imu_time (msss d : Z) : option (Z * Z) :=
  let ms := dmul (imu_secs msss d) (dofZ 1000) in
  match to_u32 ms with
  | None => None
  | Some t => match to_u32 (dmul (dsub ms (dofZ t)) (dofZ 256)) with
              | None => None
              | Some f => Some (Z.lor t (2 ^ 30), f mod 256)
              end
  end.

(** is_imu_data: ubx_sbp.c:895-902 *)
Definition is_imu (t : Z) : bool := (t =? 14) || (t =? 13) || (t =? 5) || (t =? 16) || (t =? 17) || (t =? 18).
(** received_number_msgs[] as a function, the message under construction as the six axes *)
Record imu_loop := mk_imu_loop { recv : Z -> Z; cur : Z; fields : Z -> Z }.
Definition set_at (f : Z -> Z) (t v : Z) : Z -> Z := fun u => if u =? t then v else f u.
(** maybe_parse_imu_data *)
Definition parse_imu (data t : Z) (f : Z -> Z) : Z -> Z :=
  if (t =? 14) || (t =? 13) || (t =? 5) then set_at f t (scale_gyr (convert24b data))
  else if (t =? 16) || (t =? 17) || (t =? 18) then set_at f t (scale_acc (convert24b data))
  else f.
(** check_imu_message_complete: ubx_sbp.c:848-863 *)
Definition complete (r : Z -> Z) (c : Z) : bool :=
  (r 14 =? c + 1) && (r 13 =? c + 1) && (r 5 =? c + 1) && (r 16 =? c + 1) && (r 17 =? c + 1) && (r 18 =? c + 1).
(** the loop of handle_esf_raw: ubx_sbp.c:921-969; items are (data, sensor_time_tag) *)
Fixpoint raw_loop (msss ts0 : Z) (items : list (Z * Z)) (s : esf_state) (l : imu_loop) : esf_state * list esf_out :=
  match items with
  | [] => (s, [])
  | (d, ts) :: r =>
      let t := Z.land (Z.shiftr d 24) 0xFF in
      let v := Z.land d 0xFFFFFF in
      let s := if t =? 12 then mk_esf (running_odo s) (last_odo s) (last_tick s) (out_tick s) (running_imu s) (last_imu s) (sent s) (Some (convert24b v)) else s in
      if negb (is_imu t) then raw_loop msss ts0 r s l
      else if negb (running_imu s =? -1) && (1000 <? (msss - last_imu s) mod 2 ^ 32) then
        (mk_esf (running_odo s) (last_odo s) (last_tick s) (out_tick s) (-1) (last_imu s) (sent s) (temp s), [])
      else
        let running := if running_imu s =? -1 then msss else running_imu s + (msss - last_imu s) mod 2 ^ 32 in
        let s1 := mk_esf (running_odo s) (last_odo s) (last_tick s) (out_tick s) running msss (sent s) (temp s) in
        let f := parse_imu v t (fields l) in
        let rc := set_at (recv l) t (recv l t + 1) in
        if negb (rc t =? cur l + 1) then (s1, [])
        else if complete rc (cur l) then
          let aux := if sent s1 mod 20 =? 0 then [ImuAux (aux_temp (temp s1))] else [] in
          let n := if sent s1 mod 20 =? 0 then 0 else sent s1 in
          let s2 := mk_esf (running_odo s1) (last_odo s1) (last_tick s1) (out_tick s1) (running_imu s1) (last_imu s1) (n + 1) (temp s1) in
          let m := ImuRaw (imu_time running (sensor_diff ts ts0)) (f 16) (f 17) (f 18) (f 14) (f 13) (f 5) in
          let '(s3, out) := raw_loop msss ts0 r s2 (mk_imu_loop rc (cur l + 1) f) in
          (s3, aux ++ m :: out)
        else raw_loop msss ts0 r s1 (mk_imu_loop rc (cur l) f)
  end.
(** handle_esf_raw: ubx_sbp.c:904-969 (num_raw = (length - 4) / 8 is what the decoder filled) *)
Definition handle_esf_raw (s : esf_state) (m : esf_raw) : esf_state * list esf_out :=
  raw_loop (er_msss m) (snd (znth (0, 0) 0 (er_data m))) (er_data m) s (mk_imu_loop (fun _ => 0) 0 (fun _ => 0)).
