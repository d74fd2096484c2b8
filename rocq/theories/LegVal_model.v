(** The legacy observation output of sbp2rtcm in IEEE double arithmetic, from a buffered SBP epoch to the bits of the 1004 and 1012 messages, and the
    way back through rtcm3tosbp:
    c/gnss_converters_extra/src/sbp_rtcm3.c:450-501, 622-663, 721-815, c/librtcm/src/encode.c:32-53, 110-370, 491-536, 685-733,
    c/librtcm/src/decode.c:25-54, 137-209, 258-311, 488-552, 762-833, c/gnss_converters/src/rtcm3_sbp.c:746-894.

    RtcmLegacy_model.v has the encoder and decoder on exact numbers; this file has the computations the code really makes.  Decimal literals (0.02,
    0.0005, 299792.458, ...) are the doubles nearest to them, written as correctly rounded quotients.
    The bias option of rtcm3tosbp (sbp_signal_biases) is a parameter of [leg_to_sbp_b]; [leg_to_sbp] has it at its default 0.
    Simplification: the warning about GLONASS P code is not modelled. *)
From Verif Require Import Base Bitstring Bits_model Bitstream_model RtcmFraming_model RtcmFrameOut_model RtcmLegacy_model RtcmMsm_model Signals_model Double_model Sbp2Rtcm_model MsmVal_model.
From Verif Require Nmea_model.

(** rtcm_freq_data and rtcm_sat_data: messages.h:55-63, 83-93; the code indicator is never transmitted (encode.c:147, 153, 201, 212) *)
Record dfreq := mkdfreq { q_pr : dbl; q_cp : dbl; q_cnr : dbl; q_lock : dbl; qv_pr : bool; qv_cp : bool; qv_cnr : bool; qv_lock : bool }.
Record dlsat := mkdlsat { ls_sv : Z; ls_fcn : Z; ls_l1 : dfreq; ls_l2 : dfreq }.
(** memset of the message: sbp_rtcm3.c:634 *)
Definition no_dfreq : dfreq := mkdfreq d0 d0 d0 d0 false false false false.

(** *** SBP epoch -> message structs *)
(** sbp_obs_to_freq_data: sbp_rtcm3.c:450-477 *)
Definition freq_data (o : pobs) : dfreq :=
  mkdfreq (ddiv (dofZ (o_P o)) (dofZ 50)) (dadd (dofZ (o_Li o)) (ddiv (dofZ (o_Lf o)) (dofZ 256))) (ddiv (dofZ (o_cn0 o)) (dofZ 4)) (lock_time_d (o_lock o))
    (has (o_flags o) F_CODE) (has (o_flags o) F_PHASE && has (o_flags o) F_HALF) (0 <? o_cn0 o) true.
(** sat_index_from_obs and the assignment to obs[L2_FREQ]: sbp_rtcm3.c:654-663, 756-765, 781-789 *)
Fixpoint set_l2 (sv : Z) (q : dfreq) (l : list dlsat) : list dlsat :=
  match l with
  | [] => []
  | s :: r => if ls_sv s =? sv then mkdlsat (ls_sv s) (ls_fcn s) (ls_l1 s) q :: r else s :: set_l2 sv q r
  end.
Section Out.
Variable code_of : Z -> code.
(** the switch in the loop of sbp_buffer_to_legacy_rtcm3: sbp_rtcm3.c:741-795; [fcns]: glo_sv_id_fcn_map; None: an access outside sats[32] or the map *)
Definition add_l1 (sv fcn : Z) (q : dfreq) (l : list dlsat) : option (list dlsat) :=
  if len l <? RTCM_MAX_SATS then Some (l ++ [mkdlsat sv fcn q no_dfreq]) else None.
Definition leg_step (fcns : list Z) (o : pobs) (st : list dlsat * list dlsat) : option (list dlsat * list dlsat) :=
  let '(gps, glo) := st in
  match code_of (o_code o) with
  | GPS_L1CA | GPS_L1P => match add_l1 (o_sat o) 0 (freq_data o) gps with Some gps => Some (gps, glo) | None => None end
  | GPS_L2CM | GPS_L2P => Some (set_l2 (o_sat o) (freq_data o) gps, glo)
  | GLO_L1OF | GLO_L1P =>
      if (0 <=? o_sat o) && (o_sat o <? len fcns) then
        let fcn := znth 0 (o_sat o) fcns in
        if fcn =? MSM_GLO_FCN_UNKNOWN then Some (gps, glo)
        else match add_l1 (o_sat o) fcn (freq_data o) glo with Some glo => Some (gps, glo) | None => None end
      else None
  | GLO_L2OF | GLO_L2P => Some (gps, set_l2 (o_sat o) (freq_data o) glo)
  | _ => Some (gps, glo)
  end.
Fixpoint leg_loop (fcns : list Z) (l : list pobs) (st : list dlsat * list dlsat) : option (list dlsat * list dlsat) :=
  match l with
  | [] => Some st
  | o :: r => match leg_step fcns o st with Some st => leg_loop fcns r st | None => None end
  end.
End Out.
(** compute_glo_tow_ms: sbp_rtcm3.c:479-501; compute_glo_tod_ms: 622-628.  None: the assertion fails.  (uint32_t)-1 if the leap second is unknown. *)
Definition glo_tow_d (tow : Z) (leap : option Z) : option Z :=
  match leap with
  | None => Some (2 ^ 32 - 1)
  | Some leap =>
      let t := dsub (dadd (ddiv (dofZ tow) (dofZ 1000)) (dofZ 10800)) (dofZ leap) in
      let t := if dltb t d0 then dadd t (dofZ 604800) else t in
      let t := if Nmea_model.dleb (dofZ 604800) t then dsub t (dofZ 604800) else t in
      if Nmea_model.dleb d0 t && dltb t (dofZ 604801) then
        match conv 0 (2 ^ 32 - 1) (drint (dmul t (dofZ 1000))) with Some z => Some (z mod 604800000) | None => None end
      else None
  end.
Definition glo_tod_d (tow : Z) (leap : option Z) : option Z :=
  match leap with None => Some (2 ^ 32 - 1) | Some _ => match glo_tow_d tow leap with Some t => Some (t mod 86400000) | None => None end end.

(** *** encoder *)
(** the integers of one satellite as they are written *)
Record lraw := mklraw { w_sv : Z; w_fcn : Z; w_pr : Z; w_ph1 : Z; w_lock1 : Z; w_amb : Z; w_cn1 : Z; w_dpr : Z; w_ph2 : Z; w_lock2 : Z; w_cn2 : Z }.
(** PRUNIT_GPS, PRUNIT_GLO: constants.h:16-17 *)
Definition prunit_d (s : sys) : dbl := match s with GPS => ddiv (dofZ 299792458) (dofZ 1000) | GLO => ddiv (dofZ 599584916) (dofZ 1000) end.
Definition c_0_02 : dbl := ddiv (dofZ 2) (dofZ 100).
Definition c_0_0005 : dbl := ddiv (dofZ 5) (dofZ 10000).
(** encode.c:146, 152, 197, 208; decode.c:527, 545, 812, 826 *)
Definition freq1_d (s : sys) (fcn : Z) : dbl :=
  match s with GPS => dofZ 1575420000 | GLO => dadd (dofZ 1602000000) (dmul (dofZ (fcn - 7)) (dofZ 562500)) end.
Definition freq2_d (s : sys) (fcn : Z) : dbl :=
  match s with GPS => dofZ 1227600000 | GLO => dadd (dofZ 1246000000) (dmul (dofZ (fcn - 7)) (dofZ 437500)) end.
(** to_lock_ind: encode.c:32-53; None: the conversion to uint8_t is undefined *)
Definition lock_ind_d (t : dbl) : option Z :=
  conv 0 255
    (if dltb t (dofZ 24) then dtrunc t
     else if dltb t (dofZ 72) then dtrunc (ddiv (dadd t (dofZ 24)) (dofZ 2))
     else if dltb t (dofZ 168) then dtrunc (ddiv (dadd t (dofZ 120)) (dofZ 4))
     else if dltb t (dofZ 360) then dtrunc (ddiv (dadd t (dofZ 408)) (dofZ 8))
     else if dltb t (dofZ 744) then dtrunc (ddiv (dadd t (dofZ 1176)) (dofZ 16))
     else if dltb t (dofZ 937) then dtrunc (ddiv (dadd t (dofZ 3096)) (dofZ 32))
     else Some 127).
(** ceil() as a double *)
Definition dceil_d (x : dbl) : option dbl := match dfloor (dopp x) with Some z => Some (dofZ (- z)) | None => None end.
(** lround() to a 64-bit long, then conversion to int32_t *)
Definition lround32 (x : dbl) : option Z := match conv (- 2 ^ 63) (2 ^ 63 - 1) (dround x) with Some z => Some (to_signed 32 z) | None => None end.
(** encode_diff_phaserange: encode.c:110-130 *)
Definition phase_unit (f : dbl) : dbl := ddiv (ddiv GPS_C f) c_0_0005.
Definition diff_d (cp_pr f : dbl) : option Z :=
  let u := phase_unit f in
  match lround32 (dmul cp_pr u) with
  | None => None
  | Some ppr =>
      if ppr <=? - C_2P19 then
        match dceil_d (ddiv (dsub (ddiv (dofZ (- C_2P19)) u) cp_pr) (dofZ 1500)) with
        | Some k => lround32 (dmul (dadd cp_pr (dmul (dofZ 1500) k)) u)
        | None => None
        end
      else if C_2P19 <=? ppr then
        match dceil_d (ddiv (dsub cp_pr (ddiv (dofZ C_2P19) u)) (dofZ 1500)) with
        | Some k => lround32 (dmul (dsub cp_pr (dmul (dofZ 1500) k)) u)
        | None => None
        end
      else Some ppr
  end.
Section Enc.
(** the result of converting a double outside 0 .. 2^32-1 to uint32_t: undefined in C, some 32-bit number on a real machine.  It happens for every satellite without
    L2 observation (pseudorange 0), where the result is not used *)
Variable wild : dbl -> Z.
(** (uint8_t)(l1_pr / PRUNIT): encode.c:138, 187, 511, 706 *)
Definition amb_d (s : sys) (p : dbl) : option Z := conv 0 255 (dtrunc (ddiv p (prunit_d s))).
(** round((p - amb * PRUNIT) / 0.02): encode.c:141-145, 190-194 *)
Definition offset_d (s : sys) (amb : Z) (p : dbl) : dbl := ddiv (dsub p (dmul (dofZ amb) (prunit_d s))) c_0_02.
Definition calc_d (s : sys) (amb : Z) (p : dbl) : option Z := conv 0 (2 ^ 32 - 1) (dround (offset_d s amb p)).
Definition pr_d (s : sys) (amb : Z) (p : dbl) : Z :=
  match conv 0 (2 ^ 32 - 1) (dround (offset_d s amb p)) with Some z => z | None => wild (offset_d s amb p) mod 2 ^ 32 end.
(** encode.c:147, 196, 164-176, 219-231 *)
Definition l1_prc (s : sys) (amb calc : Z) : dbl := dadd (dmul (dofZ calc) c_0_02) (dmul (dofZ amb) (prunit_d s)).
Definition phase_d (f prc : dbl) (q : dfreq) : option Z :=
  if qv_cp q then diff_d (dsub (q_cp q) (ddiv prc (ddiv GPS_C f))) f else Some CP_INVALID.
Definition lockf_d (q : dfreq) : option Z := if qv_lock q then lock_ind_d (q_lock q) else Some 0.
(** (uint8_t)round(cnr * 4.0) *)
Definition cnr_d (q : dfreq) : option Z := conv 0 255 (dround (dmul (q_cnr q) (dofZ 4))).
(** one satellite of rtcm3_encode_1004 / rtcm3_encode_1012: encode.c:498-531, 692-727 and 132-250; the difference of the two int32_t *)
Definition sat_raw (s : sys) (x : dlsat) : option lraw :=
  let p := q_pr (ls_l1 x) in
  match amb_d s p with
  | None => None
  | Some amb =>
      match calc_d s amb p with
      | None => None
      | Some calc =>
          let prc := l1_prc s amb calc in
          match phase_d (freq1_d s (ls_fcn x)) prc (ls_l1 x), lockf_d (ls_l1 x), cnr_d (ls_l1 x),
                phase_d (freq2_d s (ls_fcn x)) prc (ls_l2 x), lockf_d (ls_l2 x), cnr_d (ls_l2 x) with
          | Some ph1, Some lk1, Some cn1, Some ph2, Some lk2, Some cn2 =>
              Some (mklraw (ls_sv x) (ls_fcn x) (if qv_pr (ls_l1 x) then pr_d s amb p else PR_L1_INVALID) ph1 lk1 amb cn1
                (if qv_pr (ls_l2 x) then to_signed 32 (pr_d s amb (q_pr (ls_l2 x))) - to_signed 32 calc else PR_L2_INVALID) ph2 lk2 cn2)
          | _, _, _, _, _, _ => None
          end
      end
  end.
Definition raw_fields (s : sys) (r : lraw) : list field :=
  [(6, w_sv r); (1, 0)] ++ match s with GPS => [(24, w_pr r)] | GLO => [(5, w_fcn r); (25, w_pr r)] end ++
  [(20, w_ph1 r); (7, w_lock1 r); (amb_width s, w_amb r); (8, w_cn1 r); (2, 0); (14, w_dpr r); (20, w_ph2 r); (7, w_lock2 r); (8, w_cn2 r)].
(** the satellite loop, with the break at RTCM_MAX_SATS *)
Fixpoint body_d (s : sys) (num : Z) (l : list dlsat) : option (list field * Z) :=
  match l with
  | [] => Some ([], num)
  | x :: r =>
      if qv_pr (ls_l1 x) && qv_cp (ls_l1 x) then
        match sat_raw s x with
        | None => None
        | Some w =>
            if RTCM_MAX_SATS <=? num + 1 then Some (raw_fields s w, num + 1)
            else match body_d s (num + 1) r with Some (fs, n) => Some (raw_fields s w ++ fs, n) | None => None end
        end
      else body_d s num r
  end.
Definition kind_of (s : sys) : kind := match s with GPS => K1004 | GLO => K1012 end.
(** rtcm3_encode_1004, rtcm3_encode_1012: encode.c:491-536, 685-733; the body first, then the header.  None: undefined behaviour *)
Definition encode_leg (s : sys) (h : hdr) (l : list dlsat) (buff : list Z) : option (list Z * Z) :=
  match body_d s 0 l with
  | None => None
  | Some (body, num) =>
      let '(b, bit) := put_fields buff (body_start (kind_of s)) body in
      let '(b, _) := put_fields b 0 (hdr_fields (kind_of s) h num) in
      Some (b, byte_len bit)
  end.
(** encode_rtcm3_frame with this message *)
Definition frame_leg (s : sys) (h : hdr) (l : list dlsat) : res (list Z) :=
  match encode_leg s h l (drop 3 (repeat 0 (Z.to_nat FRAME_ARRAY_LEN))) with
  | None => Ub
  | Some _ => encode_rtcm3_frame (fun b => match encode_leg s h l b with Some r => r | None => (b, 0) end)
  end.
(** sbp_buffer_to_legacy_rtcm3: sbp_rtcm3.c:630-652, 721-815: the frames handed to the write callback; [sender]: state->sender_id *)
Definition legacy_frames (code_of : Z -> code) (fcns : list Z) (leap : option Z) (e : epoch) : res (list (list Z)) :=
  match glo_tod_d (oh_tow (e_hdr e)) leap with
  | None => Ub
  | Some tod =>
      match leg_loop code_of fcns (e_obs e) ([], []) with
      | None => Ub
      | Some (gps, glo) =>
          let stn := Z.land (e_sender e) 4095 in
          let more := if 0 <? len glo then 1 else 0 in
          bind (if 0 <? len gps then bind (frame_leg GPS (mkhdr stn (oh_tow (e_hdr e)) more 0 0) gps) (fun f => Ok [f]) else Ok []) (fun a =>
          bind (if 0 <? len glo then bind (frame_leg GLO (mkhdr stn tod 0 0 0) glo) (fun f => Ok [f]) else Ok []) (fun b => Ok (a ++ b)))
      end
  end.
End Enc.

(** *** decoder *)
(** the integers of one satellite: decode.c:137-184, 506-548, 780-828 *)
Definition get_raw (s : sys) : dec (lraw * Z * Z) :=
  sv <- get_u 6 ;; c1 <- get_u 1 ;;
  fc <- (match s with GPS => ret 0 | GLO => get_u 5 end) ;;
  p1 <- get_u (match s with GPS => 24 | GLO => 25 end) ;;
  ph1 <- get_s 20 ;; lk1 <- get_u 7 ;; amb <- get_u (amb_width s) ;; cn1 <- get_u 8 ;;
  c2 <- get_u 2 ;; dp <- get_s 14 ;; ph2 <- get_s 20 ;; lk2 <- get_u 7 ;; cn2 <- get_u 8 ;;
  ret (mklraw sv fc p1 ph1 lk1 amb cn1 dp ph2 lk2 cn2, c1, c2).
(** construct_L1_code/phase, construct_L2_code/phase, get_cnr: decode.c:258-311; a satellite with its code indicators.  A C/N0 of 0 leaves cnr untouched, it is not
    read then *)
Record rxsat := mkrxsat { x_sv : Z; x_c1 : Z; x_c2 : Z; x_l1 : dfreq; x_l2 : dfreq }.
Definition cnr_value (n : Z) : dbl := dmul (ddiv (dofZ 1) (dofZ 4)) (dofZ n).
Definition sat_value (s : sys) (w : lraw * Z * Z) : rxsat :=
  let '(r, c1, c2) := w in
  let p1 := dadd (dmul c_0_02 (dofZ (w_pr r))) (dmul (dofZ (w_amb r)) (prunit_d s)) in
  let p2 := dadd (dmul c_0_02 (dofZ (w_dpr r))) p1 in
  let phase d f := ddiv (dadd p1 (dmul c_0_0005 (dofZ d))) (ddiv GPS_C f) in
  let v1 := match s with GPS => true | GLO => w_fcn r <=? MT1012_GLO_MAX_FCN end && negb (w_ph1 r =? CP_INVALID) in
  let v2 := negb (w_ph2 r =? CP_INVALID) in
  mkrxsat (w_sv r) c1 c2
    (mkdfreq p1 (if v1 then phase (w_ph1 r) (freq1_d s (w_fcn r)) else d0) (cnr_value (w_cn1 r)) (dofZ (from_lock_ind (w_lock1 r)))
       (negb (w_pr r =? CP_INVALID)) v1 (negb (w_cn1 r =? 0)) v1)
    (mkdfreq p2 (phase (w_ph2 r) (freq2_d s (w_fcn r))) (cnr_value (w_cn2 r)) (dofZ (from_lock_ind (w_lock2 r)))
       (negb (w_dpr r =? PR_L2_INVALID)) v2 (negb (w_cn2 r =? 0)) v2).
(** rtcm3_decode_1004_bitstream, rtcm3_decode_1012_bitstream: decode.c:186-209, 488-552, 762-833 *)
Record rxmsg := mkrxmsg { rx_hdr : hdr; rx_sats : list rxsat }.
Definition decode_leg (s : sys) : dec rxmsg :=
  num <- get_u 12 ;; stn <- get_u 12 ;; tow <- get_u (tow_width s) ;; sync <- get_u 1 ;; n <- get_u 5 ;;
  div <- get_u 1 ;; smooth <- get_u 3 ;;
  if negb (num =? k_num (kind_of s)) then mismatch
  else if max_tow s <? tow then fail
  else l <- get_list (w <- get_raw s ;; ret (sat_value s w)) (Z.to_nat n) ;; ret (mkrxmsg (mkhdr stn tow sync div smooth) l).

(** *** message -> SBP observations *)
Section In.
Variable num_of : code -> Z.
(** get_gps_sbp_code, get_glo_sbp_code and the satellite numbering: rtcm3_sbp.c:746-785, 831-860; None: the observation is skipped *)
Definition sbp_sid (s : sys) (second : bool) (sv c : Z) : option (Z * code) :=
  match s with
  | GPS =>
      if (1 <=? sv) && (sv <=? 32) then
        Some (sv, if second then (if c =? 0 then GPS_L2CM else GPS_L2P) else (if c =? 0 then GPS_L1CA else GPS_L1P))
      else if (40 <=? sv) && (sv <=? 58) && negb second then Some (sv + 80, SBAS_L1CA)
      else None
  | GLO => if (1 <=? sv) && (sv <=? 24) then Some (sv, if second then GLO_L2OF else GLO_L1OF) else None
  end.
(** the body of the inner loop of add_obs_to_buffer: rtcm3_sbp.c:813-892; [bias]: sbp_signal_biases; outer None: undefined behaviour *)
Definition freq_to_sbp_b (bias : code -> dbl) (s : sys) (second : bool) (sv c : Z) (q : dfreq) : option (list pobs) :=
  if qv_pr q && qv_cp q then
    match sbp_sid s second sv c with
    | None => Some []
    | Some (sat, k) =>
        match conv 0 (2 ^ 32 - 1) (drint (dmul (dadd (q_pr q) (bias k)) (dofZ 50))), split256 (- 2 ^ 31) (2 ^ 31 - 1) (q_cp q),
              (if qv_cnr q then conv 0 255 (drint (dmul (q_cnr q) (dofZ 4))) else Some 0) with
        | Some p, Some (li, lf), Some cn =>
            if 2 ^ 31 - 1 <? li then None
            else Some [mkpobs p li lf 0 0 cn (if qv_lock q then encode_lock_d (q_lock q) else 0) (F_CODE + F_PHASE + F_HALF) sat (num_of k)]
        | _, _, _ => None
        end
    end
  else Some [].
Definition sat_to_sbp_b (bias : code -> dbl) (s : sys) (x : rxsat) : option (list pobs) :=
  match freq_to_sbp_b bias s false (x_sv x) (x_c1 x) (x_l1 x), freq_to_sbp_b bias s true (x_sv x) (x_c2 x) (x_l2 x) with
  | Some a, Some b => Some (a ++ b)
  | _, _ => None
  end.
(** the observations a message appends (at most 62, so MAX_OBS_PER_EPOCH is not reached by one epoch): rtcm3_sbp.c:810-894 *)
Definition leg_to_sbp_b (bias : code -> dbl) (s : sys) (m : rxmsg) : option (list pobs) :=
  match all_some (map (sat_to_sbp_b bias s) (rx_sats m)) with Some l => Some (concat l) | None => None end.
Definition freq_to_sbp := freq_to_sbp_b (fun _ => d0).
Definition sat_to_sbp := sat_to_sbp_b (fun _ => d0).
Definition leg_to_sbp := leg_to_sbp_b (fun _ => d0).
End In.
