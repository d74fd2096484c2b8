(** Model of the SSR messages: decoding (c/librtcm/src/ssr_decode.c), conversion to SBP (c/gnss_converters/src/rtcm3_sbp_ssr.c)
    and the orbit/clock cache in the dispatcher (c/gnss_converters/src/rtcm3_sbp.c:406-520).

    The arrays of a message struct are lists of header.num_sats entries (num_sats is read from 6 bits, the arrays have 64 places;
    a satellite's bias count is read from 5 bits, its array has 32 places: Properties_ssr proves every write is in bounds).
    The clock corrections of a satellite are [option Z]: None is a struct member that was never written (stack contents),
    which happens because decode_ssr_clock's return code is ignored (ssr_decode.c:275, 320).
    constellation_to_l1_code is libswiftnav (external); its values are those of code_t. *)
From Verif Require Import Base Bitstring Bits_model Bitstream_model RtcmMsm_model Time_model.

(** get_number_of_bits_for_epoch_time: ssr_decode.c:26-46; _sat_id: 52-75; _iode: 81-105.  None: RC_INVALID_MESSAGE *)
Definition epoch_bits (c : cons) : option Z :=
  match c with cGPS | cGAL | cBDS | cQZS | cSBAS => Some 20 | cGLO => Some 17 | cINVALID => None end.
Definition sat_bits (c : cons) : option Z :=
  match c with cGPS | cGAL | cBDS | cSBAS => Some 6 | cGLO => Some 5 | cQZS => Some 4 | cINVALID => None end.
Definition iode_bits (c : cons) : option Z :=
  match c with cGPS | cGLO | cQZS => Some 8 | cGAL | cBDS => Some 10 | cSBAS => Some 9 | cINVALID => None end.

(** message kinds: ssr_decode.c:121-147 *)
Definition mem (n : Z) (l : list Z) : bool := existsb (Z.eqb n) l.
Definition is_orbit_clock (n : Z) : bool := mem n [1057; 1060; 1063; 1066; 1240; 1243; 1246; 1249; 1258; 1261].
Definition is_orbit (n : Z) : bool := mem n [1057; 1063; 1240; 1246; 1258].
Definition is_clock (n : Z) : bool := mem n [1058; 1064; 1241; 1247; 1259].
Definition is_code_bias (n : Z) : bool := mem n [1059; 1065; 1242; 1248; 1260].
Definition is_phase_bias (n : Z) : bool := (1265 <=? n) && (n <=? 1270).

(** rtcm_msg_ssr_header: messages.h:290-303; [h_datum], [h_disp], [h_mw] are 0 when the message kind has no such field
    (the C struct leaves them unset; they are then never read) *)
Record hdr := mkhdr { h_num : Z; h_epoch : Z; h_cons : cons; h_interval : Z; h_multi : Z; h_datum : Z; h_iod : Z; h_provider : Z;
  h_solution : Z; h_disp : Z; h_mw : Z; h_nsats : Z }.
Definition need {A} (o : option Z) (f : Z -> dec A) : dec A := match o with Some n => f n | None => fail end.
Definition opt_bit (b : bool) : dec Z := if b then get_u 1 else ret 0.
(** decode_ssr_header: ssr_decode.c:149-178 *)
Definition get_header : dec hdr :=
  num <- get_u 12 ;;
  need (epoch_bits (to_constellation num)) (fun nb =>
  epoch <- get_u nb ;; interval <- get_u 4 ;; multi <- get_u 1 ;;
  datum <- opt_bit (is_orbit_clock num) ;;
  iod <- get_u 4 ;; provider <- get_u 16 ;; solution <- get_u 4 ;;
  disp <- opt_bit (is_phase_bias num) ;; mw <- opt_bit (is_phase_bias num) ;;
  nsats <- get_u 6 ;;
  ret (mkhdr num epoch (to_constellation num) interval multi datum iod provider solution disp mw nsats)).

Record orbit := mkorbit { o_sat : Z; o_iode : Z; o_radial : Z; o_along : Z; o_cross : Z; o_dradial : Z; o_dalong : Z; o_dcross : Z }.
Record clock := mkclock { k_sat : Z; k_c0 : option Z; k_c1 : option Z; k_c2 : option Z }.
(** decode_satellite_id: ssr_decode.c:224-237 *)
Definition get_sat (c : cons) : dec Z := need (sat_bits c) get_u.
(** decode_ssr_orbit: ssr_decode.c:180-214 (iodcrc, which nothing reads, is skipped over) *)
Definition get_orbit (c : cons) (sat : Z) : dec orbit :=
  need (iode_bits c) (fun nb =>
  iode <- get_u nb ;;
  iode <- (match c with
           | cBDS => get_u 8
           | cSBAS => crc <- get_u 24 ;; ret iode
           | _ => ret iode
           end) ;;
  r <- get_s 22 ;; a <- get_s 20 ;; x <- get_s 20 ;; dr <- get_s 21 ;; da <- get_s 19 ;; dx <- get_s 19 ;;
  ret (mkorbit sat iode r a x dr da dx)).
(** decode_ssr_clock: ssr_decode.c:216-222, return code ignored: a failing read ends it, the members after it stay unwritten *)
Definition get_clock (sat : Z) : dec clock :=
  c0 <- attempt (get_s 22) ;;
  match c0 with
  | None => ret (mkclock sat None None None)
  | Some _ =>
    c1 <- attempt (get_s 21) ;;
    match c1 with
    | None => ret (mkclock sat c0 None None)
    | Some _ => c2 <- attempt (get_s 27) ;; ret (mkclock sat c0 c1 c2)
    end
  end.
Definition nat_of (h : hdr) : nat := Z.to_nat (h_nsats h).
(** rtcm3_decode_orbit_bitstream: ssr_decode.c:239-268 *)
Definition decode_orbit : dec (hdr * list orbit) :=
  h <- get_header ;;
  if negb (is_orbit (h_num h)) then mismatch
  else l <- get_list (s <- get_sat (h_cons h) ;; get_orbit (h_cons h) s) (nat_of h) ;; ret (h, l).
(** rtcm3_decode_clock_bitstream: ssr_decode.c:270-296 *)
Definition decode_clock : dec (hdr * list clock) :=
  h <- get_header ;;
  if negb (is_clock (h_num h)) then mismatch
  else l <- get_list (s <- get_sat (h_cons h) ;; get_clock s) (nat_of h) ;; ret (h, l).
(** rtcm3_decode_orbit_clock_bitstream: ssr_decode.c:306-341 *)
Definition decode_orbit_clock : dec (hdr * list (orbit * clock)) :=
  h <- get_header ;;
  if negb (is_orbit_clock (h_num h)) then mismatch
  else l <- get_list (s <- get_sat (h_cons h) ;; o <- get_orbit (h_cons h) s ;; k <- get_clock s ;; ret (o, k)) (nat_of h) ;; ret (h, l).
(** rtcm3_decode_code_bias_bitstream: ssr_decode.c:351-387 *)
Record code_sat := mkcsat { cb_sat : Z; cb_biases : list (Z * Z) }.   (* (signal_id, code_bias) *)
Definition decode_code_bias : dec (hdr * list code_sat) :=
  h <- get_header ;;
  if negb (is_code_bias (h_num h)) then mismatch
  else l <- get_list (s <- get_sat (h_cons h) ;; n <- get_u 5 ;;
                      b <- get_list (i <- get_u 5 ;; v <- get_s 14 ;; ret (i, v)) (Z.to_nat n) ;; ret (mkcsat s b)) (nat_of h) ;;
       ret (h, l).
(** rtcm3_decode_phase_bias_bitstream: ssr_decode.c:397-416 (file end) *)
Record pbias := mkpbias { p_sig : Z; p_int : Z; p_wl : Z; p_disc : Z; p_bias : Z }.
Record phase_sat := mkpsat { pb_sat : Z; pb_yaw : Z; pb_rate : Z; pb_biases : list pbias }.
Definition decode_phase_bias : dec (hdr * list phase_sat) :=
  h <- get_header ;;
  if negb (is_phase_bias (h_num h)) then mismatch
  else l <- get_list (s <- get_sat (h_cons h) ;; n <- get_u 5 ;; yaw <- get_u 9 ;; rate <- get_s 8 ;;
                      b <- get_list (i <- get_u 5 ;; ii <- get_u 1 ;; w <- get_u 2 ;; d <- get_u 4 ;; v <- get_s 20 ;;
                                     ret (mkpbias i ii w d v)) (Z.to_nat n) ;;
                      ret (mkpsat s yaw rate b)) (nat_of h) ;;
       ret (h, l).

(** ** conversion to SBP *)
(** what is emitted (sender 0) *)
Record ssr_id := mkid { i_wn : Z; i_tow : Z; i_code : Z; i_sat : Z; i_interval : Z; i_iod : Z }.
Inductive ssr_out :=
| SOrbitClock (id : ssr_id) (iode : Z) (orb : Z * Z * Z * (Z * Z * Z)) (clk : option Z * option Z * option Z)
| SCode (id : ssr_id) (biases : list (Z * Z))
| SPhase (id : ssr_id) (disp mw yaw rate : Z) (biases : list pbias).
Definition l1_code (c : cons) : Z :=
  match c with cGPS => 0 | cSBAS => 2 | cGLO => 3 | cBDS => 12 | cGAL => 14 | cQZS => 31 | cINVALID => -1 end.

(** the receiver's time and leap seconds when the message arrives *)
Record env := mkenv { e_rover : gtime; e_leap : option Z }.
(** compute_ssr_message_time: rtcm3_sbp_ssr.c:22-43; None: a failed assertion or an uninitialised obs_time.
    All times here are whole seconds, so rint(tow) is exact. *)
Definition ssr_time (e : env) (h : hdr) : option (Z * Z) :=
  let ms := h_epoch h * 1000 in
  let t := match h_cons h with
           | cGLO => snd (compute_glo_time ms (e_rover e) (e_leap e))
           | cBDS => compute_gps_message_time (beidou_tow_to_gps_tow ms) (e_rover e)
           | _ => compute_gps_message_time ms (e_rover e)
           end in
  match t with None => None | Some t => Some (wn t mod 65536, tow t / 1000) end.
(** gps_time_sec_valid: rtcm3_sbp_internal.h:175-177 *)
Definition time_sec_valid (wt : Z * Z) : bool := negb (fst wt =? 0xFFFF) && (fst wt <? 32767) && (snd wt <? 604800).
(** outcome of a conversion: the messages, or an assertion failure / undefined behaviour *)
Definition outs := option (list ssr_out).
(** header part of every message; Some None: invalid time, stop *)
Definition ssr_ident (e : env) (h : hdr) (sat : Z) : option (option ssr_id) :=
  match ssr_time e h with
  | None => None
  | Some wt => Some (if time_sec_valid wt
                     then Some (mkid (fst wt) (snd wt) (l1_code (h_cons h)) sat (h_interval h) (h_iod h)) else None)
  end.
(** "for each satellite: compute the header, return if the time is invalid, emit" *)
Fixpoint per_sat {A} (e : env) (h : hdr) (sat_of : A -> option Z) (emit : ssr_id -> A -> list ssr_out) (l : list A) : outs :=
  match l with
  | [] => Some []
  | a :: l =>
    match sat_of a with
    | None => per_sat e h sat_of emit l     (* continue *)
    | Some sat =>
      match ssr_ident e h sat with
      | None => None
      | Some None => Some []                (* return *)
      | Some (Some id) => match per_sat e h sat_of emit l with None => None | Some r => Some (emit id a ++ r) end
      end
    end
  end.
Definition orbit_clock_out (id : ssr_id) (o : orbit) (k : clock) : ssr_out :=
  SOrbitClock id (o_iode o) (o_radial o, o_along o, o_cross o, (o_dradial o, o_dalong o, o_dcross o)) (k_c0 k, k_c1 k, k_c2 k).
(** the search loop: rtcm3_sbp_ssr.c:106-117: first orbit with the clock's satellite *)
Definition find_orbit (sat : Z) (l : list orbit) : option orbit := find (fun o => o_sat o =? sat) l.
(** rtcm3_ssr_separate_orbit_clock_to_sbp: rtcm3_sbp_ssr.c:86-131: sat_count runs below both counts and indexes the clocks *)
Definition separate_to_sbp (e : env) (ho : hdr) (os : list orbit) (ks : list clock) : outs :=
  per_sat e ho (fun k => match find_orbit (k_sat k) os with Some o => Some (o_sat o) | None => None end)
    (fun id k => match find_orbit (k_sat k) os with Some o => [orbit_clock_out id o k] | None => [] end)
    (take (Z.min (len ks) (len os)) ks).
(** rtcm3_ssr_orbit_clock_to_sbp: rtcm3_sbp_ssr.c:133-152 *)
Definition combined_to_sbp (e : env) (h : hdr) (l : list (orbit * clock)) : outs :=
  per_sat e h (fun ok => Some (o_sat (fst ok))) (fun id ok => [orbit_clock_out id (fst ok) (snd ok)]) l.
(** rtcm3_ssr_code_bias_to_sbp: rtcm3_sbp_ssr.c:154-204 *)
Definition code_to_sbp (e : env) (h : hdr) (l : list code_sat) : outs :=
  per_sat e h (fun s => Some (cb_sat s)) (fun id s => [SCode id (cb_biases s)]) l.
(** the bias loop of rtcm3_ssr_phase_bias_to_sbp: rtcm3_sbp_ssr.c:234-264.  [acc] is biases[0..bias_index), [count] is sig_count;
    SBP_MSG_SSR_PHASE_BIASES_BIASES_MAX = 30 *)
Definition PHASE_MAX : Z := 30.
Fixpoint phase_loop (mk : list pbias -> ssr_out) (acc : list pbias) (count : Z) (l : list pbias) : list ssr_out :=
  match l with
  | [] => if (count =? 0) || (0 <? len acc) then [mk acc] else []
  | b :: l => let acc := acc ++ [b] in
              if PHASE_MAX <=? len acc then mk acc :: phase_loop mk [] (count + 1) l else phase_loop mk acc (count + 1) l
  end.
(** rtcm3_ssr_phase_bias_to_sbp: rtcm3_sbp_ssr.c:206-265 *)
Definition phase_to_sbp (e : env) (h : hdr) (l : list phase_sat) : outs :=
  per_sat e h (fun s => Some (pb_sat s))
    (fun id s => phase_loop (SPhase id (h_disp h) (h_mw h) (pb_yaw s) (pb_rate s)) [] 0 (pb_biases s)) l.

(** ** the cache and the dispatcher *)
(** ssr_orbit_clock_cache: rtcm3_sbp.h:58-69; [c_data] is the union, tagged with the member last stored (None: never) *)
Inductive cdata := UOrbit (h : hdr) (l : list orbit) | UClock (h : hdr) (l : list clock).
Record centry := mkentry { has_clock : bool; has_orbit : bool; c_data : option cdata }.
Definition cache := cons -> centry.
Definition empty_entry : centry := mkentry false false None.
Definition empty_cache : cache := fun _ => empty_entry.
Definition set_entry (c : cache) (k : cons) (x : centry) : cache := fun k' => if cons_eqb k k' then x else c k'.
Definition same_epoch (a b : hdr) : bool := (h_epoch a =? h_epoch b) && (h_iod a =? h_iod b) && cons_eqb (h_cons a) (h_cons b).

(** rtcm2sbp_decode_payload, cases 1057...: rtcm3_sbp.c:419-453.  None: undefined behaviour or a failed assertion *)
Definition on_orbit (e : env) (c : cache) (h : hdr) (os : list orbit) : option (cache * list ssr_out) :=
  let x := c (h_cons h) in
  let store := Some (set_entry c (h_cons h) (mkentry false true (Some (UOrbit h os))), []) in
  if has_clock x && negb (has_orbit x) then
    match c_data x with
    | Some (UClock h' ks) =>
      if same_epoch h' h
      then match separate_to_sbp e h os ks with
           | Some o => Some (set_entry c (h_cons h) (mkentry false (has_orbit x) (c_data x)), o)
           | None => None
           end
      else store
    | _ => None    (* reading a union member that was not stored *)
    end
  else store.
(** cases 1058...: rtcm3_sbp.c:454-485 *)
Definition on_clock (e : env) (c : cache) (h : hdr) (ks : list clock) : option (cache * list ssr_out) :=
  let x := c (h_cons h) in
  let store := Some (set_entry c (h_cons h) (mkentry true false (Some (UClock h ks))), []) in
  if negb (has_clock x) && has_orbit x then
    match c_data x with
    | Some (UOrbit h' os) =>
      if same_epoch h' h
      then match separate_to_sbp e h' os ks with
           | Some o => Some (set_entry c (h_cons h) (mkentry (has_clock x) false (c_data x)), o)
           | None => None
           end
      else store
    | _ => None
    end
  else store.

Definition message_number (p : list Z) : Z := Z.lor (Z.shiftl (znth 0 0 p) 4) (Z.land (Z.shiftr (znth 0 1 p) 4) 15).
Inductive ssr_msg :=
| MOrbit (h : hdr) (l : list orbit) | MClock (h : hdr) (l : list clock) | MBoth (h : hdr) (l : list (orbit * clock))
| MCode (h : hdr) (l : list code_sat) | MPhase (h : hdr) (l : list phase_sat).
(** the switch of rtcm2sbp_decode_payload, decoding part: rtcm3_sbp.c:419-520.  None: not an SSR message, or not RC_OK *)
Definition classify (p : list Z) : option ssr_msg :=
  let n := message_number p in
  let via {A} (d : dec (hdr * A)) (k : hdr -> A -> ssr_msg) :=
    match run_dec d p with Ok (h, l) => Some (k h l) | _ => None end in
  if mem n [1057; 1063; 1240; 1246; 1258] then via decode_orbit MOrbit
  else if mem n [1058; 1064; 1241; 1247; 1259] then via decode_clock MClock
  else if mem n [1059; 1065; 1242; 1248; 1260] then via decode_code_bias MCode
  else if mem n [1060; 1066; 1243; 1249; 1261] then via decode_orbit_clock MBoth
  else if mem n [1265; 1266; 1267; 1268; 1269; 1270] then via decode_phase_bias MPhase
  else None.
(** ... and its effect *)
Definition ssr_step (e : env) (c : cache) (m : ssr_msg) : option (cache * list ssr_out) :=
  let keep (o : outs) := match o with Some o => Some (c, o) | None => None end in
  match m with
  | MOrbit h l => on_orbit e c h l
  | MClock h l => on_clock e c h l
  | MBoth h l => keep (combined_to_sbp e h l)
  | MCode h l => keep (code_to_sbp e h l)
  | MPhase h l => keep (phase_to_sbp e h l)
  end.
Definition ssr_payload (e : env) (c : cache) (p : list Z) : option (cache * list ssr_out) :=
  match classify p with Some m => ssr_step e c m | None => Some (c, []) end.
(** a stream of payloads; the result lists what each payload made the converter emit *)
Fixpoint ssr_run (c : cache) (l : list (env * list Z)) : option (cache * list (list ssr_out)) :=
  match l with
  | [] => Some (c, [])
  | (e, p) :: l => match ssr_payload e c p with
                   | None => None
                   | Some (c, o) => match ssr_run c l with None => None | Some (c, r) => Some (c, o :: r) end
                   end
  end.
