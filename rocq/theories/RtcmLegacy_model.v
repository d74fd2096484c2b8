(** Model of librtcm's legacy observation messages 1001-1004, 1010, 1012:
    c/librtcm/src/encode.c:32-53, 110-733 and c/librtcm/src/decode.c:25-51, 137-209, 257-552, 712-833.

    Doubles are exact numbers here (floating-point rounding is not modelled):
    - a pseudorange is an integer number of 0.0005 m  (0.02 m = 40; PRUNIT_GPS = 299792.458 m = 599584916);
    - a carrier phase is an integer number of 1/599584916000 cycle (599584916000 = GPS_C / 0.0005), chosen so that on a carrier of f Hz
      one 0.0005 m of range is exactly f units, whatever f;
    - a C/N0 is an integer number of 0.25 dB-Hz; a lock time is whole seconds (the encoder truncates anyway).
    A conversion of an unrepresentable double to an unsigned type is undefined behaviour: the encoders return None. *)
From Verif Require Import Base Bitstring Bits_model Bitstream_model.

Definition PRUNIT_GPS : Z := 599584916.   (* constants.h:16, in 0.0005 m *)
Definition PRUNIT_GLO : Z := 1199169832.  (* constants.h:17 *)
Definition CYCLE : Z := 599584916000.     (* units per carrier cycle *)
Definition GPS_L1_HZ : Z := 1575420000.   (* constants.h:82-97 *)
Definition GPS_L2_HZ : Z := 1227600000.
Definition GLO_L1_HZ (fcn : Z) : Z := 1602000000 + (fcn - 7) * 562500.
Definition GLO_L2_HZ (fcn : Z) : Z := 1246000000 + (fcn - 7) * 437500.
Definition MT1012_GLO_MAX_FCN : Z := 20.
Definition RTCM_MAX_SATS : Z := 32.
Definition RTCM_MAX_TOW_MS : Z := 604799999.
Definition RTCM_GLO_MAX_TOW_MS : Z := 86399999.
Definition C_2P19 : Z := 524288.
Definition PR_L1_INVALID : Z := 0xFFF80000.
Definition PR_L2_INVALID : Z := -8192.    (* (int32_t)0xFFFFE000 *)
Definition CP_INVALID : Z := -524288.     (* (int32_t)0xFFF80000 *)

Inductive sys := GPS | GLO.
(** which message: constellation, extended (ambiguity and C/N0 present), dual frequency *)
Record kind := mkkind { k_num : Z; k_sys : sys; k_ext : bool; k_two : bool }.
Definition K1001 := mkkind 1001 GPS false false.
Definition K1002 := mkkind 1002 GPS true false.
Definition K1003 := mkkind 1003 GPS false true.
Definition K1004 := mkkind 1004 GPS true true.
Definition K1010 := mkkind 1010 GLO true false.
Definition K1012 := mkkind 1012 GLO true true.

(** rtcm_freq_data, rtcm_sat_data, rtcm_obs_header, rtcm_obs_message: messages.h:55-63, 83-110 (code, always 0 here, dropped) *)
Record freq := mkfreq { pr : Z; cp : Z; lock : Z; cnr : Z; v_pr : bool; v_cp : bool; v_lock : bool; v_cnr : bool }.
Record sat := mksat { sv : Z; fcn : Z; l1 : freq; l2 : freq }.
Record hdr := mkhdr { h_stn : Z; h_tow : Z; h_sync : Z; h_div : Z; h_smooth : Z }.
Record obs_msg := mkobs { o_hdr : hdr; o_sats : list sat }.

Definition prunit (s : sys) : Z := match s with GPS => PRUNIT_GPS | GLO => PRUNIT_GLO end.
Definition freq_l1 (s : sys) (fcn : Z) : Z := match s with GPS => GPS_L1_HZ | GLO => GLO_L1_HZ fcn end.
Definition freq_l2 (s : sys) (fcn : Z) : Z := match s with GPS => GPS_L2_HZ | GLO => GLO_L2_HZ fcn end.

(** round() / lround() of x/d, d > 0: to nearest, halves away from zero *)
Definition round_div (x d : Z) : Z := if 0 <=? x then (2 * x + d) / (2 * d) else - ((- (2 * x) + d) / (2 * d)).
Definition ceil_div (x d : Z) : Z := - ((- x) / d).

(** to_lock_ind: encode.c:32-53 *)
Definition to_lock_ind (t : Z) : Z :=
  if t <? 24 then t else if t <? 72 then (t + 24) / 2 else if t <? 168 then (t + 120) / 4
  else if t <? 360 then (t + 408) / 8 else if t <? 744 then (t + 1176) / 16 else if t <? 937 then (t + 3096) / 32 else 127.
(** from_lock_ind: decode.c:34-54 *)
Definition from_lock_ind (l : Z) : Z :=
  if l <? 24 then l else if l <? 48 then 2 * l - 24 else if l <? 72 then 4 * l - 120 else if l <? 96 then 8 * l - 408
  else if l <? 120 then 16 * l - 1176 else if l <? 127 then 32 * l - 3096 else 937.

(** encode_diff_phaserange: encode.c:110-130; [x] = cp_pr in carrier-phase units, [f] the carrier frequency; ppr is an int32_t *)
Definition encode_diff_phaserange (x f : Z) : Z :=
  let ppr := to_signed 32 (round_div x f) in
  if ppr <=? - C_2P19 then
    to_signed 32 (round_div (x + 1500 * CYCLE * ceil_div (- C_2P19 * f - x) (1500 * CYCLE)) f)
  else if C_2P19 <=? ppr then
    to_signed 32 (round_div (x - 1500 * CYCLE * ceil_div (x - C_2P19 * f) (1500 * CYCLE)) f)
  else ppr.

(** encode_basic_freq_data / encode_basic_glo_freq_data: encode.c:132-250, the L1 and the L2 branch *)
Definition amb_of (s : sys) (l1_pr : Z) : Z := l1_pr / prunit s.
Definition calc_l1_pr (s : sys) (l1_pr : Z) : Z := round_div (l1_pr - amb_of s l1_pr * prunit s) 40.
Definition pr_val (s : sys) (fd : freq) (l1_pr : Z) : Z := round_div (pr fd - amb_of s l1_pr * prunit s) 40.
(** (uint8_t)(l1_pr / PRUNIT), the two (uint32_t)round(...) conversions and the final (uint8_t)lock conversion are defined *)
Definition conv_ok (s : sys) (fd : freq) (l1_pr : Z) : bool :=
  (0 <=? l1_pr) && (amb_of s l1_pr <? 256) && (0 <=? pr_val s fd l1_pr) && (pr_val s fd l1_pr <? 2 ^ 32)
  && (negb (v_lock fd) || (0 <=? lock fd)).
Definition cp_field (s : sys) (f : Z) (fd : freq) (l1_pr : Z) : Z :=
  if v_cp fd then
    let l1_prc := 40 * calc_l1_pr s l1_pr + amb_of s l1_pr * prunit s in
    encode_diff_phaserange (cp fd - f * l1_prc) f
  else CP_INVALID.
Definition lock_field (fd : freq) : Z := if v_lock fd then to_lock_ind (lock fd) else 0.
Definition enc_l1 (s : sys) (fcn : Z) (fd : freq) (l1_pr : Z) : option (list field) :=
  if conv_ok s fd l1_pr then
    Some ((1, 0) :: match s with
                    | GPS => [(24, if v_pr fd then pr_val s fd l1_pr else PR_L1_INVALID)]
                    | GLO => [(5, fcn); (25, if v_pr fd then pr_val s fd l1_pr else PR_L1_INVALID)]
                    end ++ [(20, cp_field s (freq_l1 s fcn) fd l1_pr); (7, lock_field fd)])
  else None.
Definition enc_l2 (s : sys) (fcn : Z) (fd : freq) (l1_pr : Z) : option (list field) :=
  if conv_ok s fd l1_pr then
    Some [(2, 0); (14, if v_pr fd then pr_val s fd l1_pr - calc_l1_pr s l1_pr else PR_L2_INVALID);
          (20, cp_field s (freq_l2 s fcn) fd l1_pr); (7, lock_field fd)]
  else None.
(** (uint8_t)round(cnr * 4.0) *)
Definition enc_cnr (fd : freq) : option (list field) :=
  if (0 <=? cnr fd) && (cnr fd <? 256) then Some [(8, cnr fd)] else None.

Definition oapp (a b : option (list field)) : option (list field) :=
  match a, b with Some x, Some y => Some (x ++ y) | _, _ => None end.
(** which satellites an encoder includes: encode.c:378, 420, 462-463, 498, 651, 692 *)
Definition included (k : kind) (s : sat) : bool :=
  v_pr (l1 s) && v_cp (l1 s) && (if k_two k && negb (k_ext k) then v_pr (l2 s) && v_cp (l2 s) else true).
Definition amb_width (s : sys) : Z := match s with GPS => 8 | GLO => 7 end.
(** the fields of one satellite *)
Definition enc_sat (k : kind) (s : sat) : option (list field) :=
  let p := pr (l1 s) in
  oapp (Some [(6, sv s)])
  (oapp (enc_l1 (k_sys k) (fcn s) (l1 s) p)
  (oapp (if k_ext k then oapp (Some [(amb_width (k_sys k), amb_of (k_sys k) p)]) (enc_cnr (l1 s)) else Some [])
        (if k_two k then oapp (enc_l2 (k_sys k) (fcn s) (l2 s) p) (if k_ext k then enc_cnr (l2 s) else Some []) else Some []))).
(** the satellite loop with its break at RTCM_MAX_SATS: fields and num_sats *)
Fixpoint enc_sats (k : kind) (num : Z) (l : list sat) : option (list field * Z) :=
  match l with
  | [] => Some ([], num)
  | s :: r =>
    if included k s then
      match enc_sat k s with
      | None => None
      | Some fs =>
        if RTCM_MAX_SATS <=? num + 1 then Some (fs, num + 1)
        else match enc_sats k (num + 1) r with None => None | Some (fr, n) => Some (fs ++ fr, n) end
      end
    else enc_sats k num r
  end.
(** rtcm3_write_header / rtcm3_write_glo_header: encode.c:291-370 *)
Definition tow_width (s : sys) : Z := match s with GPS => 30 | GLO => 27 end.
Definition hdr_fields (k : kind) (h : hdr) (num_sats : Z) : list field :=
  [(12, k_num k); (12, h_stn h); (tow_width (k_sys k), h_tow h); (1, h_sync h); (5, num_sats); (1, h_div h); (3, h_smooth h)].
(** rtcm3_encode_1001..1004, 1010, 1012: the body is written from bit 64 (61), then the header at bit 0 *)
Definition body_start (k : kind) : Z := match k_sys k with GPS => 64 | GLO => 61 end.
Definition encode_obs (k : kind) (m : obs_msg) (buff : list Z) : option (list Z * Z) :=
  match enc_sats k 0 (o_sats m) with
  | None => None
  | Some (body, num_sats) =>
    let '(b, bit) := put_fields buff (body_start k) body in
    let '(b, _) := put_fields b 0 (hdr_fields k (o_hdr m) num_sats) in
    Some (b, byte_len bit)
  end.

(** *** decoders *)
(** get_cnr: decode.c:299-311; a zero C/N0 leaves cnr untouched (modelled as 0) *)
Definition get_cnr : dec (Z * bool) := c <- get_u 8 ;; ret (c, negb (c =? 0)).
Definition no_cnr : Z * bool := (0, false).
(** decode_basic_*_freq_data, construct_L1_code/phase, construct_L2_code/phase: decode.c:137-184, 257-297.
    construct_L1_code compares an int32_t holding 24/25 bits with (int)PR_L1_INVALID = -524288. *)
Definition no_freq : freq := mkfreq 0 0 0 0 false false false false.
Definition decode_sat (k : kind) : dec sat :=
  id <- get_u 6 ;; _ <- get_u 1 ;;
  fc <- (match k_sys k with GPS => ret 0 | GLO => get_u 5 end) ;;
  l1_pr <- get_u (match k_sys k with GPS => 24 | GLO => 25 end) ;;
  diff <- get_s 20 ;; li <- get_u 7 ;;
  amb <- (if k_ext k then get_u (amb_width (k_sys k)) else ret 0) ;;
  c1 <- (if k_ext k then get_cnr else ret no_cnr) ;;
  let p1 := 40 * l1_pr + amb * prunit (k_sys k) in
  let fok := match k_sys k with GPS => true | GLO => fc <=? MT1012_GLO_MAX_FCN end in
  let vc1 := fok && negb (diff =? CP_INVALID) in
  let f1 := mkfreq p1 (freq_l1 (k_sys k) fc * (p1 + diff)) (from_lock_ind li) (fst c1)
                   (negb (l1_pr =? CP_INVALID)) vc1 vc1 (snd c1) in
  if k_two k then
    _ <- get_u 2 ;; l2_pr <- get_s 14 ;; diff2 <- get_s 20 ;; li2 <- get_u 7 ;;
    c2 <- (if k_ext k then get_cnr else ret no_cnr) ;;
    let vc2 := negb (diff2 =? CP_INVALID) in
    ret (mksat id fc f1 (mkfreq (40 * l2_pr + p1) (freq_l2 (k_sys k) fc * (p1 + diff2)) (from_lock_ind li2) (fst c2)
                                 (negb (l2_pr =? PR_L2_INVALID)) vc2 vc2 (snd c2)))
  else ret (mksat id fc f1 no_freq).
(** rtcm3_decode_1001..1004, 1010, 1012_bitstream; rtcm3_read_header / read_glo_header: decode.c:186-209 *)
Definition max_tow (s : sys) : Z := match s with GPS => RTCM_MAX_TOW_MS | GLO => RTCM_GLO_MAX_TOW_MS end.
Definition decode_obs (k : kind) : dec obs_msg :=
  num <- get_u 12 ;; stn <- get_u 12 ;; tow <- get_u (tow_width (k_sys k)) ;; sync <- get_u 1 ;; n <- get_u 5 ;;
  div <- get_u 1 ;; smooth <- get_u 3 ;;
  if negb (num =? k_num k) then mismatch
  else if max_tow (k_sys k) <? tow then fail
  else l <- get_list (decode_sat k) (Z.to_nat n) ;; ret (mkobs (mkhdr stn tow sync div smooth) l).
