(** Model of librtcm's MSM messages: c/librtcm/src/msm_utils.c, encode.c:54-108, 854-1200, decode.c:54-135, 205-255, 979-1400.

    Doubles are exact numbers (floating-point rounding is not modelled): ranges are integer multiples of 2^-31 ms (the finest
    unit of any MSM), range rates of 0.0001 m/s, C/N0 of 1/16 dB-Hz, lock times of 1 ms.  A zero-length VLA (num_sats or
    num_cells = 0) is formally undefined in C; it is taken to be empty here, as gcc and clang do. *)
From Verif Require Import Base Bitstring Bits_model Bitstream_model RtcmLegacy_model.

Inductive cons := cGPS | cSBAS | cGLO | cBDS | cQZS | cGAL | cINVALID.
Definition cons_eqb (a b : cons) : bool :=
  match a, b with cGPS, cGPS | cSBAS, cSBAS | cGLO, cGLO | cBDS, cBDS | cQZS, cQZS | cGAL, cGAL | cINVALID, cINVALID => true | _, _ => false end.

Definition between (a x b : Z) : bool := (a <=? x) && (x <=? b).
(** to_msm_type: msm_utils.c:25-47 (0 = MSM_UNKNOWN, n = MSMn) *)
Definition to_msm_type (num : Z) : Z :=
  if (num <? 1071) || (1127 <? num) then 0 else let d := num mod 10 in if between 1 d 7 then d else 0.
(** to_constellation: msm_utils.c:54-80 *)
Definition to_constellation (n : Z) : cons :=
  if between 1071 n 1077 || between 1057 n 1062 || (n =? 1265) then cGPS
  else if between 1081 n 1087 || between 1063 n 1068 || (n =? 1266) then cGLO
  else if between 1091 n 1097 || between 1240 n 1245 || (n =? 1267) then cGAL
  else if between 1101 n 1107 || (n =? 1269) then cSBAS
  else if between 1111 n 1117 || between 1246 n 1251 || (n =? 1268) then cQZS
  else if between 1121 n 1127 || between 1258 n 1263 || (n =? 1270) then cBDS
  else cINVALID.
(** count_mask_values(mask_size, mask): msm_utils.c:87-93 (uint8_t result; masks have at most 64 entries) *)
Definition count_mask (n : Z) (mask : list bool) : Z :=
  fold_left (fun a b => (a + (if b : bool then 1 else 0)) mod 256) (take n mask) 0.
(** find_nth_mask_value: msm_utils.c:102-118; None: an assertion fails *)
Fixpoint find_nth (pos : Z) (found : Z) (n : Z) (mask : list bool) : option Z :=
  match mask with
  | [] => None
  | b :: r => let f := (found + (if b : bool then 1 else 0)) mod 256 in if n =? f then Some pos else find_nth (pos + 1) f n r
  end.
Definition find_nth_mask_value (size : Z) (mask : list bool) (n : Z) : option Z :=
  if n <=? 0 then None else find_nth 0 0 n (take size mask).

(** rtcm3_encode_lock_time: encode.c:60-107; [t] in ms *)
Definition encode_lock_time (t : Z) : Z :=
  if t <? 32 then 0 else if t <? 64 then 1 else if t <? 128 then 2 else if t <? 256 then 3 else if t <? 512 then 4
  else if t <? 1024 then 5 else if t <? 2048 then 6 else if t <? 4096 then 7 else if t <? 8192 then 8 else if t <? 16384 then 9
  else if t <? 32768 then 10 else if t <? 65536 then 11 else if t <? 131072 then 12 else if t <? 262144 then 13
  else if t <? 524288 then 14 else 15.
(** rtcm3_decode_lock_time: decode.c:56-66, in ms *)
Definition decode_lock_time (l : Z) : Z := let l := Z.land l 15 in if l =? 0 then 0 else Z.shiftl 32 (l - 1).
(** from_msm_lock_ind_ext: decode.c:68-135, in ms *)
Definition from_lock_ext (l : Z) : Z :=
  if l <? 64 then l else if l <? 96 then 2*l-64 else if l <? 128 then 4*l-256 else if l <? 160 then 8*l-768
  else if l <? 192 then 16*l-2048 else if l <? 224 then 32*l-5120 else if l <? 256 then 64*l-12288 else if l <? 288 then 128*l-28672
  else if l <? 320 then 256*l-65536 else if l <? 352 then 512*l-147456 else if l <? 384 then 1024*l-327680
  else if l <? 416 then 2048*l-720896 else if l <? 448 then 4096*l-1572864 else if l <? 480 then 8192*l-3407872
  else if l <? 512 then 16384*l-7340032 else if l <? 544 then 32768*l-15728640 else if l <? 576 then 65536*l-33554432
  else if l <? 608 then 131072*l-71303168 else if l <? 640 then 262144*l-150994944 else if l <? 672 then 524288*l-318767104
  else if l <? 704 then 1048576*l-671088640 else 67108864.

(** rtcm_msm_header, rtcm_msm_sat_data, rtcm_msm_signal_data, rtcm_msm_message: messages.h:66-83, 112-137.
    The arrays sats[32] and signals[64] are lists of their used entries. *)
Record mhdr := mkmhdr { mh_num : Z; mh_stn : Z; mh_tow : Z; mh_multiple : Z; mh_iods : Z; mh_reserved : Z; mh_steering : Z;
  mh_ext_clock : Z; mh_div : Z; mh_smooth : Z; sat_mask : list bool; sig_mask : list bool; cell_mask : list bool }.
Record msat := mkmsat { glo_fcn : Z; rough_range : Z; rough_rate : Z }.
Record msig := mkmsig { s_pr : Z; s_cp : Z; s_lock : Z; s_hca : bool; s_cnr : Z; s_rate : Z;
  sv_pr : bool; sv_cp : bool; sv_cnr : bool; sv_lock : bool; sv_dop : bool }.
Record mmsg := mkmmsg { m_hdr : mhdr; m_sats : list msat; m_sigs : list msig }.
Definition no_sat : msat := mkmsat 0 0 0.
Definition no_sig : msig := mkmsig 0 0 0 false 0 0 false false false false false.

Definition num_sats (h : mhdr) : Z := count_mask 64 (sat_mask h).
Definition num_sigs (h : mhdr) : Z := count_mask 32 (sig_mask h).
(** uint8_t cell_mask_size = num_sats * num_sigs *)
Definition cell_mask_size (h : mhdr) : Z := (num_sats h * num_sigs h) mod 256.
Definition num_cells (h : mhdr) : Z := count_mask (cell_mask_size h) (cell_mask h).
(** the double loop over satellites and signals visiting the set cells: encode.c:1119-1148, decode.c:1287-1335 *)
Fixpoint zrange (a : Z) (n : nat) : list Z := match n with O => [] | S n => a :: zrange (a + 1) n end.
Definition cells (ns ng : Z) (mask : list bool) : list (Z * Z) :=
  flat_map (fun sat => flat_map (fun sig => if znth false (sat * ng + sig) mask then [(sat, sig)] else []) (zrange 0 (Z.to_nat ng)))
           (zrange 0 (Z.to_nat ns)).
Fixpoint mapi {A B} (i : Z) (f : Z -> A -> B) (l : list A) : list B :=
  match l with [] => [] | x :: r => f i x :: mapi (i + 1) f r end.

(** *** encoder *)
Definition flag_fields (l : list bool) : list field := map (fun b : bool => (1, Z.b2z b)) l.
(** rtcm3_encode_msm_header: encode.c:854-911; for GLONASS tow_ms is split into day of week and time of day (uint32_t) *)
Definition hdr_msm_fields (h : mhdr) : list field :=
  [(12, mh_num h); (12, mh_stn h)] ++
  (if cons_eqb (to_constellation (mh_num h)) cGLO
   then let dow := (mh_tow h / 86400000) mod 256 in [(3, dow); (27, (mh_tow h - dow * 86400000) mod 2 ^ 32)]
   else [(30, mh_tow h)]) ++
  [(1, mh_multiple h); (3, mh_iods h); (7, mh_reserved h); (2, mh_steering h); (2, mh_ext_clock h); (1, mh_div h); (3, mh_smooth h)] ++
  flag_fields (take 64 (sat_mask h)) ++ flag_fields (take 32 (sig_mask h)) ++ flag_fields (take (cell_mask_size h) (cell_mask h)).
(** encode_msm_sat_data: encode.c:913-954; one ms is 2^31 units *)
Definition integer_ms (s : msat) : Z := rough_range s / 2 ^ 31.
Definition modulo_ms (s : msat) : Z := round_div (rough_range s - integer_ms s * 2 ^ 31) (2 ^ 21).
Definition rough_q (s : msat) : Z := integer_ms s * 2 ^ 31 + modulo_ms s * 2 ^ 21.
Definition rate_field (s : msat) : Z := Z.quot (rough_rate s) 10000.
Definition rate_q (s : msat) : Z := rate_field s * 10000.
(** the (uint8_t) and (int16_t) conversions of doubles are defined *)
Definition sat_conv_ok (five : bool) (s : msat) : bool :=
  between 0 (integer_ms s) 255 && (if five then between (-32768) (rate_field s) 32767 else true).
Definition sat_fields (five : bool) (l : list msat) : list field :=
  map (fun s => (8, integer_ms s)) l ++ (if five then map (fun s => (4, glo_fcn s)) l else []) ++
  map (fun s => (10, modulo_ms s)) l ++ (if five then map (fun s => (14, rate_field s)) l else []).
(** encode_msm_fine_*: encode.c:956-1048 *)
Definition MSM_PR_INVALID : Z := -16384.
Definition MSM_CP_INVALID : Z := -2097152.
Definition MSM_DOP_INVALID : Z := -16384.
Definition pr_field (g : msig) (rough : Z) : Z :=
  if sv_pr g && (Z.abs (s_pr g - rough) <? 2 ^ 21) then round_div (s_pr g - rough) (2 ^ 7) else MSM_PR_INVALID.
Definition cp_fine_field (g : msig) (rough : Z) : Z :=
  if sv_cp g && (Z.abs (s_cp g - rough) <? 2 ^ 23) then round_div (s_cp g - rough) (2 ^ 2) else MSM_CP_INVALID.
Definition lock_msm_field (g : msig) : Z := if sv_lock g then encode_lock_time (s_lock g) else 0.
Definition cnr_field (g : msig) : Z := if sv_cnr g then round_div (s_cnr g) 16 else 0.
Definition dop_field (g : msig) (rate : Z) : Z :=
  if sv_dop g && (Z.abs (s_rate g - rate) <? 16384) then s_rate g - rate else MSM_DOP_INVALID.
Definition sig_conv_ok (g : msig) : bool := if sv_cnr g then between 0 (round_div (s_cnr g) 16) 255 else true.
Definition sig_fields (five : bool) (m : mmsg) (cs : list (Z * Z)) : list field :=
  let g i := znth no_sig i (m_sigs m) in let s c := znth no_sat (fst c) (m_sats m) in
  mapi 0 (fun i (c : Z * Z) => (15, pr_field (g i) (rough_q (s c)))) cs ++
  mapi 0 (fun i (c : Z * Z) => (22, cp_fine_field (g i) (rough_q (s c)))) cs ++
  mapi 0 (fun i (c : Z * Z) => (4, lock_msm_field (g i))) cs ++
  mapi 0 (fun i (c : Z * Z) => (1, Z.b2z (s_hca (g i)))) cs ++
  mapi 0 (fun i (c : Z * Z) => (6, cnr_field (g i))) cs ++
  (if five then mapi 0 (fun i (c : Z * Z) => (15, dop_field (g i) (rate_q (s c)))) cs else []).
(** rtcm3_encode_msm_internal with the type check of rtcm3_encode_msm4 / msm5: encode.c:1057-1194.
    Ok (buffer, size): size 0 reports failure.  Ub: sats[] has 32 entries; unrepresentable conversions. *)
Definition encode_msm (ty : Z) (m : mmsg) (buff : list Z) : res (list Z * Z) :=
  let h := m_hdr m in
  if negb (ty =? to_msm_type (mh_num h)) then Ok (buff, 0)
  else if negb ((ty =? 4) || (ty =? 5)) then Ok (buff, 0)
  else if cons_eqb (to_constellation (mh_num h)) cINVALID then Ok (buff, 0)
  else if 64 <? cell_mask_size h then Ub            (* count_mask_values reads past cell_mask[64], encode.c:1078 *)
  else if 64 <? num_sats h * num_sigs h then Ok (buff, 0)
  else if 32 <? num_sats h then Ub
  else
    let five := ty =? 5 in
    let sats := take (num_sats h) (m_sats m) in
    let cs := cells (num_sats h) (num_sigs h) (cell_mask h) in
    if forallb (sat_conv_ok five) sats && forallb sig_conv_ok (take (len cs) (m_sigs m)) then
      let '(b, bit) := put_fields buff 0 (hdr_msm_fields h ++ sat_fields five sats ++ sig_fields five m cs) in
      Ok (b, byte_len bit)
    else Ub.

(** *** decoder *)
Definition get_bool : dec bool := b <- get_u 1 ;; ret (negb (b =? 0)).
(** normalize_bds2_tow: decode.c:205-211 (2^30 and 14 s; uint32_t) *)
Definition normalize_bds2_tow (t : Z) : Z := if 2 ^ 30 - 14000 <=? t then RTCM_MAX_TOW_MS + 1 - (2 ^ 30 - t) else t.
(** the cell-mask loop: decode.c:251-253; cell_mask[] has 64 entries *)
Definition get_cells (size : Z) : dec (list bool) :=
  if size <=? 64 then get_list get_bool (Z.to_nat size)
  else _ <- get_list get_bool 64 ;; _ <- get_bool ;; undefined.
(** rtcm3_read_msm_header: decode.c:213-255 *)
Definition get_msm_header (num : Z) : dec mhdr :=
  stn <- get_u 12 ;;
  tow <- (match to_constellation num with
          | cGLO => _ <- skip 3 ;; get_u 27
          | cBDS => t <- get_u 30 ;; ret (normalize_bds2_tow t)
          | _ => get_u 30
          end) ;;
  mult <- get_u 1 ;; iods <- get_u 3 ;; rsv <- get_u 7 ;; st <- get_u 2 ;; ext <- get_u 2 ;; div <- get_u 1 ;; sm <- get_u 3 ;;
  sats <- get_list get_bool 64 ;; sigs <- get_list get_bool 32 ;;
  cs <- get_cells ((count_mask 64 sats * count_mask 32 sigs) mod 256) ;;
  ret (mkmhdr num stn tow mult iods rsv st ext div sm sats sigs cs).
(** decode_msm_sat_data: decode.c:979-1030: (range, range_valid, sat_info, rate, rate_valid) *)
Definition MSM_ROUGH_RANGE_INVALID : Z := 255.
Definition MSM_ROUGH_RATE_INVALID : Z := -8192.
Definition MSM_PR_EXT_INVALID : Z := -524288.
Definition MSM_CP_EXT_INVALID : Z := -8388608.
Definition MSM_GLO_FCN_UNKNOWN : Z := 255.
(** rtcm3_decode_msm_internal: decode.c:1200-1340.  [odd]: types 5 and 7; [ext]: types 6 and 7 *)
Definition decode_msm (ty : Z) : dec mmsg :=
  if negb (between 4 ty 7) then mismatch else
  num <- get_u 12 ;;
  if negb (ty =? to_msm_type num) then mismatch
  else if cons_eqb (to_constellation num) cINVALID then mismatch
  else
    let odd := (ty =? 5) || (ty =? 7) in let ext := (ty =? 6) || (ty =? 7) in
    let glo := cons_eqb (to_constellation num) cGLO in
    h <- get_msm_header num ;;
    if (if glo then RTCM_GLO_MAX_TOW_MS else RTCM_MAX_TOW_MS) <? mh_tow h then fail
    else if 64 <? num_sats h * num_sigs h then fail
    else
      let ns := Z.to_nat (num_sats h) in let nc := Z.to_nat (num_cells h) in
      ints <- get_list (get_u 8) ns ;;
      infos <- (if odd then get_list (get_u 4) ns else ret (repeat 0 ns)) ;;
      mods <- get_list (get_u 10) ns ;;
      rates <- (if odd then get_list (get_s 14) ns else ret (repeat MSM_ROUGH_RATE_INVALID ns)) ;;
      prs <- get_list (get_s (if ext then 20 else 15)) nc ;;
      cps <- get_list (get_s (if ext then 24 else 22)) nc ;;
      locks <- get_list (get_u (if ext then 10 else 4)) nc ;;
      hcas <- get_list get_bool nc ;;
      cnrs <- get_list (get_u (if ext then 10 else 6)) nc ;;
      dops <- (if odd then get_list (get_s 15) nc else ret (repeat MSM_DOP_INVALID nc)) ;;
      if 32 <? num_sats h then undefined   (* msg->sats[sat] with sat >= RTCM_MAX_SATS *)
      else
        let r_ok s := negb (znth 0 s ints =? MSM_ROUGH_RANGE_INVALID) in
        let range s := znth 0 s ints * 2 ^ 31 + (if r_ok s then znth 0 s mods * 2 ^ 21 else 0) in
        let v_ok s := negb (znth 0 s rates =? MSM_ROUGH_RATE_INVALID) in
        let rate s := if odd then znth 0 s rates * 10000 else 0 in
        let sats := mapi 0 (fun s (_ : Z) => mkmsat (if glo && negb odd then MSM_GLO_FCN_UNKNOWN else znth 0 s infos) (range s) (rate s)) ints in
        let sig i (c : Z * Z) :=
          let s := fst c in
          let vp := r_ok s && negb (znth 0 i prs =? (if ext then MSM_PR_EXT_INVALID else MSM_PR_INVALID)) in
          let vc := r_ok s && negb (znth 0 i cps =? (if ext then MSM_CP_EXT_INVALID else MSM_CP_INVALID)) in
          let vn := negb (znth 0 i cnrs =? 0) in
          let vd := v_ok s && negb (znth 0 i dops =? MSM_DOP_INVALID) in
          mkmsig (if vp then range s + znth 0 i prs * (if ext then 2 ^ 2 else 2 ^ 7) else 0)
                 (if vc then range s + znth 0 i cps * (if ext then 1 else 2 ^ 2) else 0)
                 (if ext then from_lock_ext (znth 0 i locks) else decode_lock_time (znth 0 i locks))
                 (znth false i hcas)
                 (if vn then znth 0 i cnrs * (if ext then 1 else 16) else 0)
                 (if vd then rate s + znth 0 i dops else 0)
                 vp vc vn true vd in
        ret (mkmmsg h sats (mapi 0 sig (cells (num_sats h) (num_sigs h) (cell_mask h)))).
