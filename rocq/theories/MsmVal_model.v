(** The numbers of the MSM messages in IEEE double arithmetic, from an SBP observation to the bits of an MSM4/MSM5 message and back:
    c/gnss_converters_extra/src/sbp_rtcm3.c:548-620 (sbp_obs_to_msm_signal_data), c/librtcm/src/encode.c:60-107, 913-1160 (MSM encoder),
    c/librtcm/src/decode.c:56-66, 979-1380 (MSM decoder), c/gnss_converters/src/rtcm3_utils.c:412-535 (msm_signal_frequency),
    c/gnss_converters/src/rtcm3_sbp.c:1415-1457, 1546-1656 (the cell loop of add_msm_obs_to_buffer).

    Sbp2Msm_model.v says which observation is written where; this file computes what is written.  RtcmMsm_model.v has the same encoder and
    decoder on exact numbers.  Decimal literals (0.032, 0.0001, ...) are the doubles nearest to them, written as correctly rounded quotients.
    The bias options of rtcm3tosbp (sbp_signal_biases, sbp_glo_code_bias, sbp_glo_phase_bias) are parameters of [cell_obs_b], [cell_to_sbp_b], [to_sbp_b]; the
    versions without the suffix have them at their default 0. *)
From Verif Require Import Base Bits_model Bitstream_model RtcmLegacy_model RtcmMsm_model Signals_model Double_model Sbp2Rtcm_model Sbp2Msm_model.
From Verif Require Nmea_model.

Definition d0 : dbl := dofZ 0.
(** unary minus *)
Definition dopp (x : dbl) : dbl :=
  match x with
  | Binary.B754_zero _ _ s => Binary.B754_zero 53 1024 (negb s)
  | Binary.B754_infinity _ _ s => Binary.B754_infinity 53 1024 (negb s)
  | Binary.B754_finite _ _ s m e h => Binary.B754_finite 53 1024 (negb s) m e h
  | x => x
  end.
Definition GPS_C : dbl := dofZ 299792458.
Definition has (flags bit : Z) : bool := negb (Z.land flags bit =? 0).
Definition F_CODE : Z := 1. Definition F_PHASE : Z := 2. Definition F_HALF : Z := 4. Definition F_DOPPLER : Z := 8.

(** rtcm_msm_sat_data, rtcm_msm_signal_data, rtcm_msm_message: messages.h:112-137 *)
Record dsat := mkdsat { ds_fcn : Z; ds_range : dbl; ds_rate : dbl }.
Record dsig := mkdsig { d_pr : dbl; d_cp : dbl; d_lock : dbl; d_hca : bool; d_cnr : dbl; d_rate : dbl;
  dv_pr : bool; dv_cp : bool; dv_cnr : bool; dv_lock : bool; dv_dop : bool }.
Record dmsg := mkdmsg { dm_hdr : mhdr; dm_sats : list dsat; dm_sigs : list dsig }.
(** the struct is zeroed first: sbp_rtcm3.c:507 *)
Definition no_dsat : dsat := mkdsat 0 d0 d0.
Definition no_dsig : dsig := mkdsig d0 d0 d0 false d0 d0 false false false false false.

(** rtcm3_decode_lock_time: decode.c:56-66 *)
Definition lock_time_d (l : Z) : dbl := let l := Z.land l 15 in if l =? 0 then d0 else ddiv (dofZ (Z.shiftl 32 (l - 1))) (dofZ 1000).
(** rtcm3_encode_lock_time: encode.c:60-107 *)
Fixpoint lock_index (ms : Z) (n : nat) (i : Z) (t : dbl) : Z :=
  match n with O => i | S n => if dltb t (ddiv (dofZ ms) (dofZ 1000)) then i else lock_index (2 * ms) n (i + 1) t end.
Definition encode_lock_d (t : dbl) : Z := lock_index 32 15 0 t.

Section Conv.
(** the carrier frequencies of libswiftnav (external), Hz; the ones /repo defines itself are literals below *)
Variable carrier : code -> Z.
Variable code_of : Z -> code.
(** the numeric value of a code (enum code_e of libswiftnav) *)
Variable num_of : code -> Z.

(** the switch of msm_signal_frequency: rtcm3_utils.c:421-534; GPS and GLO frequencies: librtcm/include/rtcm3/constants.h:81-97 *)
Definition signal_freq (k : code) (glo_fcn : Z) : option dbl :=
  match k with
  | GPS_L1CA | GPS_L1P | GPS_L1CI | GPS_L1CQ | GPS_L1CX => Some (dofZ 1575420000)
  | GPS_L2CM | GPS_L2CL | GPS_L2CX | GPS_L2P => Some (dofZ 1227600000)
  | GLO_L1OF | GLO_L1P => if glo_fcn =? MSM_GLO_FCN_UNKNOWN then None
                          else Some (dadd (dofZ 1602000000) (dmul (dofZ (glo_fcn - MSM_GLO_FCN_OFFSET)) (dofZ 562500)))
  | GLO_L2OF | GLO_L2P => if glo_fcn =? MSM_GLO_FCN_UNKNOWN then None
                          else Some (dadd (dofZ 1246000000) (dmul (dofZ (glo_fcn - MSM_GLO_FCN_OFFSET)) (dofZ 437500)))
  | CODE_INVALID => None
  | k => Some (dofZ (carrier k))
  end.
(** msm_signal_frequency: rtcm3_utils.c:412-535; outer None: an assertion fails *)
Definition msm_signal_frequency (h : mhdr) (signal_index glo_fcn : Z) : option (option dbl) :=
  match msm_signal_to_code h signal_index with None => None | Some k => Some (signal_freq k glo_fcn) end.

(** *** SBP observation -> message struct: sbp_rtcm3.c:571-620 *)
Definition obs_pr_ms (o : pobs) : dbl := ddiv (dmul (ddiv (dofZ (o_P o)) (dofZ 50)) (dofZ 1000)) GPS_C.
Definition obs_cp_ms (o : pobs) (f : dbl) : dbl := ddiv (dmul (dadd (dofZ (o_Li o)) (ddiv (dofZ (o_Lf o)) (dofZ 256))) (dofZ 1000)) f.
Definition obs_rate (o : pobs) (f : dbl) : dbl := ddiv (dmul (dopp (dadd (dofZ (o_Di o)) (ddiv (dofZ (o_Df o)) (dofZ 256)))) GPS_C) f.
(** the value of rint() as a double *)
Definition rint_d (x : dbl) : option dbl := match drint x with Some z => Some (dofZ z) | None => None end.
(** [fcns]: glo_sv_id_fcn_map, 29 entries; None: access outside it *)
Definition obs_fcn (h : mhdr) (fcns : list Z) (o : pobs) : option Z :=
  if cons_eqb (to_constellation (mh_num h)) cGLO
  then if (0 <=? o_sat o) && (o_sat o <? len fcns) then Some (znth 0 (o_sat o) fcns) else None
  else Some MSM_GLO_FCN_UNKNOWN.
Definition obs_freq (h : mhdr) (fcns : list Z) (o : pobs) : option (Z * option dbl) :=
  match code_to_msm_signal_index h (code_of (o_code o)), obs_fcn h fcns o with
  | Some sig, Some fcn => match msm_signal_frequency h sig fcn with Some f => Some (fcn, f) | None => None end
  | _, _ => None
  end.
(** the satellite entry: rough range and rate of the observation just written; None: undefined *)
Definition sat_step (fcn : Z) (f : option dbl) (o : pobs) (s : dsat) : option dsat :=
  match (if has (o_flags o) F_CODE then match rint_d (dmul (obs_pr_ms o) (dofZ 1024)) with Some r => Some (ddiv r (dofZ 1024)) | None => None end
         else Some (ds_range s)),
        (match f with
         | Some f => if has (o_flags o) F_DOPPLER then rint_d (obs_rate o f) else Some (ds_rate s)
         | None => Some (ds_rate s) end) with
  | Some rng, Some rate => Some (mkdsat fcn rng rate)
  | _, _ => None
  end.
Definition write_sat (h : mhdr) (fcns : list Z) (o : pobs) (s : option dsat) : option dsat :=
  match s, obs_freq h fcns o with
  | Some s, Some (fcn, f) => sat_step fcn f o s
  | _, _ => None
  end.
(** the signal entry; the value behind an unset flag is never read (here 0) *)
Definition obs_sig (f : option dbl) (o : pobs) : dsig :=
  let fv := match f with Some _ => true | None => false end in
  let fr := match f with Some f => f | None => d0 end in
  let vc := fv && has (o_flags o) F_PHASE in
  let vd := fv && has (o_flags o) F_DOPPLER in
  let vp := has (o_flags o) F_CODE in
  mkdsig (if vp then obs_pr_ms o else d0) (if vc then obs_cp_ms o fr else d0) (lock_time_d (o_lock o))
    (vc && negb (has (o_flags o) F_HALF)) (ddiv (dofZ (o_cn0 o)) (dofZ 4)) (if vd then obs_rate o fr else d0)
    vp vc true true vd.
Definition write_sig (h : mhdr) (fcns : list Z) (o : pobs) : option dsig :=
  match obs_freq h fcns o with Some (_, f) => Some (obs_sig f o) | None => None end.
Fixpoint all_some {A} (l : list (option A)) : option (list A) :=
  match l with
  | [] => Some []
  | Some x :: l => match all_some l with Some r => Some (x :: r) | None => None end
  | None :: _ => None
  end.
(** the message struct after the third loop of sbp_buffer_to_msm; the observations of a satellite entry are latest first *)
Definition values (fcns : list Z) (m : omsg) : option dmsg :=
  let h := om_hdr m in
  match all_some (map (fold_right (write_sat h fcns) (Some no_dsat)) (om_sats m)),
        all_some (map (fun c => match c with Some o => write_sig h fcns o | None => Some no_dsig end) (om_sigs m)) with
  | Some ss, Some gs => Some (mkdmsg h ss gs)
  | _, _ => None
  end.

(** *** encoder *)
(** the integers written for a satellite and for a cell *)
Record rsat := mkrsat { r_int : Z; r_info : Z; r_mod : Z; r_rate : Z }.
Record rsig := mkrsig { r_pr : Z; r_cp : Z; r_lock : Z; r_hca : bool; r_cnr : Z; r_dop : Z }.
Definition no_rsat : rsat := mkrsat 0 0 0 0.
Definition no_rsig : rsig := mkrsig 0 0 0 false 0 0.
(** a C conversion of a double to an integer type with range lo..hi; None: undefined *)
Definition conv (lo hi : Z) (z : option Z) : option Z := match z with Some z => if (lo <=? z) && (z <=? hi) then Some z else None | None => None end.
(** encode_msm_sat_data: encode.c:913-954 *)
Definition sat_raw (five : bool) (s : dsat) : option rsat :=
  match conv 0 255 (dfloor (ds_range s)) with
  | None => None
  | Some int =>
      match conv 0 65535 (dround (dmul (dofZ 1024) (dsub (ds_range s) (dofZ int)))),
            (if five then conv (-32768) 32767 (dtrunc (ds_rate s)) else Some 0) with
      | Some md, Some rate => Some (mkrsat int (ds_fcn s) md rate)
      | _, _ => None
      end
  end.
Definition rough_ms (r : rsat) : dbl := dadd (dofZ (r_int r)) (ddiv (dofZ (r_mod r)) (dofZ 1024)).
Definition P2 (k : Z) : dbl := dscale 1 (- k).
Definition d1e_4 : dbl := ddiv (dofZ 1) (dofZ 10000).
(** encode.c:1117-1146, 956-1048 *)
Definition fine (valid : bool) (x rough : dbl) : dbl := if valid then dsub x rough else d0.
Definition fine_field (valid : bool) (d limit unit : dbl) (bits invalid : Z) : option Z :=
  if valid && dltb (Nmea_model.dabs d) limit then conv (- 2 ^ (bits - 1)) (2 ^ (bits - 1) - 1) (dround (ddiv d unit)) else Some invalid.
Definition sig_raw (five : bool) (s : rsat) (g : dsig) : option rsig :=
  match fine_field (dv_pr g) (fine (dv_pr g) (d_pr g) (rough_ms s)) (P2 10) (P2 24) 16 MSM_PR_INVALID,
        fine_field (dv_cp g) (fine (dv_cp g) (d_cp g) (rough_ms s)) (P2 8) (P2 29) 32 MSM_CP_INVALID,
        (if dv_cnr g then conv 0 255 (dround (d_cnr g)) else Some 0),
        (if five then fine_field (dv_dop g) (fine (dv_dop g) (d_rate g) (dofZ (r_rate s))) (dmul d1e_4 (dofZ 16384)) d1e_4 16 MSM_DOP_INVALID else Some 0) with
  | Some pr, Some cp, Some cn, Some dp => Some (mkrsig pr cp (if dv_lock g then encode_lock_d (d_lock g) else 0) (d_hca g) cn dp)
  | _, _, _, _ => None
  end.
Definition column (n : Z) (l : list Z) : list (Z * Z) := map (pair n) l.
Definition raw_fields (five : bool) (ss : list rsat) (gs : list rsig) : list (Z * Z) :=
  column 8 (map r_int ss) ++ (if five then column 4 (map r_info ss) else []) ++ column 10 (map r_mod ss) ++ (if five then column 14 (map r_rate ss) else []) ++
  column 15 (map r_pr gs) ++ column 22 (map r_cp gs) ++ column 4 (map r_lock gs) ++ flag_fields (map r_hca gs) ++ column 6 (map r_cnr gs) ++
  (if five then column 15 (map r_dop gs) else []).
(** rtcm3_encode_msm4, rtcm3_encode_msm5: encode.c:1057-1194 *)
Definition encode_msm_d (ty : Z) (m : dmsg) (buff : list Z) : res (list Z * Z) :=
  let h := dm_hdr m in
  if negb (ty =? to_msm_type (mh_num h)) then Ok (buff, 0)
  else if negb ((ty =? 4) || (ty =? 5)) then Ok (buff, 0)
  else if cons_eqb (to_constellation (mh_num h)) cINVALID then Ok (buff, 0)
  else if 64 <? cell_mask_size h then Ub
  else if 64 <? num_sats h * num_sigs h then Ok (buff, 0)
  else if 32 <? num_sats h then Ub
  else
    let five := ty =? 5 in
    let cs := cells (num_sats h) (num_sigs h) (cell_mask h) in
    match all_some (map (sat_raw five) (take (num_sats h) (dm_sats m))) with
    | None => Ub
    | Some ss =>
        match all_some (mapi 0 (fun i (c : Z * Z) => sig_raw five (znth no_rsat (fst c) ss) (znth no_dsig i (dm_sigs m))) cs) with
        | None => Ub
        | Some gs => let '(b, bit) := put_fields buff 0 (hdr_msm_fields h ++ raw_fields five ss gs) in Ok (b, byte_len bit)
        end
    end.

(** *** decoder *)
(** the integer fields of the message: decode.c:1187-1335 *)
Definition decode_raw (ty : Z) : dec (mhdr * list rsat * list rsig) :=
  if negb (between 4 ty 7) then mismatch else
  num <- get_u 12 ;;
  if negb (ty =? to_msm_type num) then mismatch
  else if cons_eqb (to_constellation num) cINVALID then mismatch
  else
    let odd := (ty =? 5) || (ty =? 7) in let ext := (ty =? 6) || (ty =? 7) in
    let glo := cons_eqb (to_constellation num) cGLO in
    h <- get_msm_header num ;;
    if (if glo then RTCM_GLO_MAX_TOW_MS else RTCM_MAX_TOW_MS) <? mh_tow h then fail
    else if 64 <? num_sats h * num_sigs h then fail
    else
      let ns := Z.to_nat (num_sats h) in let nc := Z.to_nat (num_cells h) in
      ints <- get_list (get_u 8) ns ;;
      infos <- (if odd then get_list (get_u 4) ns else ret (repeat 0 ns)) ;;
      mods <- get_list (get_u 10) ns ;;
      rates <- (if odd then get_list (get_s 14) ns else ret (repeat MSM_ROUGH_RATE_INVALID ns)) ;;
      prs <- get_list (get_s (if ext then 20 else 15)) nc ;;
      cps <- get_list (get_s (if ext then 24 else 22)) nc ;;
      locks <- get_list (get_u (if ext then 10 else 4)) nc ;;
      hcas <- get_list get_bool nc ;;
      cnrs <- get_list (get_u (if ext then 10 else 6)) nc ;;
      dops <- (if odd then get_list (get_s 15) nc else ret (repeat MSM_DOP_INVALID nc)) ;;
      if 32 <? num_sats h then undefined   (* msg->sats[sat] with sat >= RTCM_MAX_SATS *)
      else ret (h, mapi 0 (fun s (_ : Z) => mkrsat (znth 0 s ints) (znth 0 s infos) (znth 0 s mods) (znth 0 s rates)) ints,
                mapi 0 (fun i (_ : Z) => mkrsig (znth 0 i prs) (znth 0 i cps) (znth 0 i locks) (znth false i hcas) (znth 0 i cnrs) (znth 0 i dops)) prs).
(** decode_msm_sat_data and the final loop: decode.c:979-1030, 1336-1380 *)
Definition sat_value (ty : Z) (glo : bool) (r : rsat) : dsat :=
  let odd := (ty =? 5) || (ty =? 7) in
  mkdsat (if glo && negb odd then MSM_GLO_FCN_UNKNOWN else r_info r)
         (if r_int r =? MSM_ROUGH_RANGE_INVALID then dofZ (r_int r) else rough_ms r) (if odd then dofZ (r_rate r) else d0).
Definition sig_value (ty : Z) (r : rsat) (g : rsig) : dsig :=
  let odd := (ty =? 5) || (ty =? 7) in let ext := (ty =? 6) || (ty =? 7) in
  let s := sat_value ty false r in
  let r_ok := negb (r_int r =? MSM_ROUGH_RANGE_INVALID) in
  let vp := r_ok && negb (r_pr g =? (if ext then MSM_PR_EXT_INVALID else MSM_PR_INVALID)) in
  let vc := r_ok && negb (r_cp g =? (if ext then MSM_CP_EXT_INVALID else MSM_CP_INVALID)) in
  let vn := negb (r_cnr g =? 0) in
  let vd := odd && negb (r_rate r =? MSM_ROUGH_RATE_INVALID) && negb (r_dop g =? MSM_DOP_INVALID) in
  mkdsig (if vp then dadd (ds_range s) (dmul (dofZ (r_pr g)) (P2 (if ext then 29 else 24))) else d0)
         (if vc then dadd (ds_range s) (dmul (dofZ (r_cp g)) (P2 (if ext then 31 else 29))) else d0)
         (if ext then ddiv (dofZ (from_lock_ext (r_lock g))) (dofZ 1000) else lock_time_d (r_lock g))
         (r_hca g)
         (if vn then (if ext then dmul (dofZ (r_cnr g)) (P2 4) else dofZ (r_cnr g)) else d0)
         (if vd then dadd (ds_rate s) (dmul (dofZ (r_dop g)) d1e_4) else d0)
         vp vc vn true vd.
Definition msg_value (ty : Z) (w : mhdr * list rsat * list rsig) : dmsg :=
  let '(h, ss, gs) := w in
  mkdmsg h (map (sat_value ty (cons_eqb (to_constellation (mh_num h)) cGLO)) ss)
    (mapi 0 (fun i (c : Z * Z) => sig_value ty (znth no_rsat (fst c) ss) (znth no_rsig i gs)) (cells (num_sats h) (num_sigs h) (cell_mask h))).
Definition decode_msm_d (ty : Z) : dec dmsg := w <- decode_raw ty ;; ret (msg_value ty w).

(** *** message struct -> SBP observation *)
(** unsupported_signal: rtcm3_sbp.c:1435-1457 (the AUX codes do not occur in MSM) *)
Definition unsupported_signal (k : code) : bool :=
  match k with
  | GLO_L1P | GLO_L2P | BDS3_B1CI | BDS3_B1CQ | BDS3_B1CX | BDS3_B7I | BDS3_B7Q | BDS3_B7X | BDS3_B3I | BDS3_B3Q | BDS3_B3X => true
  | _ => false
  end.
(** receiver settings: constellation_mask (true: discard), glo_sv_id_fcn_map *)
Record rcfg := mkrcfg { rc_masked : cons -> bool; rc_fcns : list Z }.
(** the integer and 1/256 parts: rtcm3_sbp.c:1603-1613, 1633-1640; (i, f) before conversion of i+1 to its type; None: undefined *)
Definition split256 (lo hi : Z) (x : dbl) : option (Z * Z) :=
  match conv lo hi (dfloor x) with
  | None => None
  | Some i => match conv 0 65535 (drint (dmul (dsub x (dofZ i)) (dofZ 256))) with
              | Some f => Some (if f =? 256 then (i + 1, 0) else (i, f mod 256))
              | None => None
              end
  end.
(** the fields of the SBP observation: rtcm3_sbp.c:1578-1640; [f]: carrier frequency if known; [sb]: sbp_signal_biases[code], [cb] and [pb]: code_bias_m and
    phase_bias_c; None: undefined *)
Definition cell_obs_b (sb cb pb : dbl) (f : option dbl) (k : code) (prn : Z) (g : dsig) : option pobs :=
  let fv := match f with Some _ => true | None => false end in
  let fr := match f with Some f => f | None => d0 end in
  let pm := dadd (dadd (ddiv (dmul (d_pr g) GPS_C) (dofZ 1000)) sb) cb in
  match conv 0 (2 ^ 32 - 1) (drint (dmul pm (dofZ 50))),
        (if dv_cp g && fv then split256 (- 2 ^ 31) (2 ^ 31 - 1) (dadd (ddiv (dmul (d_cp g) fr) (dofZ 1000)) pb) else Some (0, 0)),
        (if dv_cnr g then conv 0 255 (drint (dmul (d_cnr g) (dofZ 4))) else Some 0),
        (if dv_dop g && fv then split256 (- 2 ^ 15) (2 ^ 15 - 1) (ddiv (dmul (dopp (d_rate g)) fr) GPS_C) else Some (0, 0)) with
  | Some p, Some (li, lf), Some cn, Some (di, df) =>
      if 2 ^ 31 - 1 <? li then None else
      Some (mkpobs p li lf (to_signed 16 di) df cn (if dv_lock g then encode_lock_d (d_lock g) else 0)
        (F_CODE + (if dv_cp g && fv then F_PHASE + (if d_hca g then 0 else F_HALF) else 0) + (if dv_dop g && fv then F_DOPPLER else 0))
        prn (num_of k))
  | _, _, _, _ => None
  end.
Definition cell_obs : option dbl -> code -> Z -> dsig -> option pobs := cell_obs_b d0 d0 d0.
(** rtcm3_sbp.c:1549-1656: None: undefined or a failed assertion; Some None: the cell is discarded; [bias]: the three biases of a code and GLONASS channel *)
Definition cell_to_sbp_b (bias : code -> Z -> dbl * dbl * dbl) (rc : rcfg) (h : mhdr) (sat sig : Z) (s : dsat) (g : dsig) : option (option pobs) :=
  match msm_signal_to_code h sig, msm_sat_to_prn h sat with
  | Some k, Some prn =>
      if code_eqb k CODE_INVALID || (prn =? PRN_INVALID) then Some None
      else match cons_of k with
      | None => None
      | Some c =>
          if rc_masked rc c || unsupported_signal k || negb (dv_pr g) then Some None
          else
            match msm_get_glo_fcn h sat (ds_fcn s) (rc_fcns rc) with
            | None => None
            | Some (_, fcn) =>
                let fcn := if cons_eqb (to_constellation (mh_num h)) cGLO then fcn else MSM_GLO_FCN_UNKNOWN in
                let '(sb, cb, pb) := bias k fcn in
                match cell_obs_b sb cb pb (signal_freq k fcn) k prn g with Some o => Some (Some o) | None => None end
            end
      end
  | _, _ => None
  end.
(** the double loop: rtcm3_sbp.c:1546-1656, in cell order; the observations it appends (ObsBuffer_model.fill_msm bounds their number) *)
Definition to_sbp_b (bias : code -> Z -> dbl * dbl * dbl) (rc : rcfg) (m : dmsg) : option (list pobs) :=
  let h := dm_hdr m in
  match all_some (mapi 0 (fun i (c : Z * Z) => cell_to_sbp_b bias rc h (fst c) (snd c) (znth no_dsat (fst c) (dm_sats m)) (znth no_dsig i (dm_sigs m)))
                    (cells (num_sats h) (num_sigs h) (cell_mask h))) with
  | None => None
  | Some l => Some (flat_map (fun o => match o with Some o => [o] | None => [] end) l)
  end.
Definition no_bias (k : code) (fcn : Z) : dbl * dbl * dbl := (d0, d0, d0).
Definition cell_to_sbp := cell_to_sbp_b no_bias.
Definition to_sbp := to_sbp_b no_bias.
End Conv.
