(** Model of the base position, antenna description and GLONASS bias messages in both directions: SBP to RTCM 1006/1008/1033/1230
    (c/gnss_converters_extra/src/sbp_rtcm3.c, c/librtcm/src/encode.c) and RTCM 1005/1006/1033/1230 to SBP (c/gnss_converters/src/rtcm3_sbp.c,
    c/librtcm/src/decode.c), with the IEEE double arithmetic in between.  The integer part of the messages is RtcmStation_model.v.
    [Ub]: conversion of a double that does not fit the integer type (undefined in C). *)
From Coq Require Import String Ascii.
From Verif Require Import Base Bits_model Bitstream_model Double_model RtcmStation_model RtcmFrameOut_model ObsBuffer_model Time_model.
Import ListNotations.
Open Scope Z_scope.
Open Scope list_scope.

(** a conversion of a rounded double to an integer type *)
Definition to_int (lo hi : Z) (o : option Z) : res Z :=
  match o with Some n => if (lo <=? n) && (n <=? hi) then Ok n else Ub | None => Ub end.
(** the bytes of a string literal *)
Definition txt (s : string) : list Z := map (fun a => Z.of_N (N_of_ascii a)) (list_ascii_of_string s).
(** a C string: what precedes the first NUL *)
Fixpoint cstr (l : list Z) : list Z := match l with [] => [] | c :: l => if c =? 0 then [] else c :: cstr l end.

(** ** SBP to RTCM *)
(** the double fields of rtcm_msg_1005/1006: messages.h *)
Record d1006 := mkd1006 { d_stn : Z; d_x : dbl; d_y : dbl; d_z : dbl; d_h : dbl }.
(** RTCM_1006_MAX_ANTENNA_HEIGHT_M: messages.h (6.5535) *)
Definition MAX_HEIGHT : dbl := ddiv (dofZ 65535) (dofZ 10000).
(** (int64_t)round(msg_1005->arp_x * 10000.0): encode.c:558, 564, 568 *)
Definition q_arp (x : dbl) : res Z := to_int (- 2 ^ 63) (2 ^ 63 - 1) (dround (dmul x (dofZ 10000))).
(** encode.c:589-595 *)
Definition q_height (h : dbl) : res Z :=
  let h := if dltb h (dofZ 0) then dofZ 0 else if dgtb h MAX_HEIGHT then MAX_HEIGHT else h in
  to_int 0 65535 (dround (dmul h (dofZ 10000))).
(** rtcm3_encode_1006: encode.c:543-600; the indicators are the PIKSI_ constants of sbp_rtcm3_internal.h:30-76 as set by
    sbp_to_rtcm3_1005: sbp_rtcm3.c:206-236 *)
Definition quantise_1006 (m : d1006) : res msg_1006 :=
  bind (q_arp (d_x m)) (fun x => bind (q_arp (d_y m)) (fun y => bind (q_arp (d_z m)) (fun z => bind (q_height (d_h m)) (fun h =>
  Ok (mk1006 (mk1005 (d_stn m) 0 1 1 1 0 x 1 y 0 z) h))))).
(** the station part of struct rtcm3_out_state: sbp_rtcm3.h:27-60 *)
Record ost := mkost { o_sender : Z; o_known : bool; o_height : dbl; o_ant : list Z; o_rcv : list Z }.
(** sbp2rtcm_init: sbp_rtcm3.c:66-69 (sender_id is not initialised: [s]) *)
Definition ost0 (s : Z) : ost := mkost s false (dofZ 0) [] [].
(** sbp2rtcm_set_ant_height: sbp_rtcm3.c:372-380 *)
Definition set_ant_height (h : dbl) (st : ost) : bool * ost :=
  if dltb h (dofZ 0) || dgtb h MAX_HEIGHT then (false, st) else (true, mkost (o_sender st) true h (o_ant st) (o_rcv st)).
(** sbp2rtcm_set_rcv_ant_descriptors: sbp_rtcm3.c:382-388, STRNCPY into char[32]: utils.h:22-29.  The arrays are kept as the C string in them. *)
Definition set_descriptors (ant rcv : list Z) (st : ost) : ost :=
  mkost (o_sender st) true (o_height st) (take 31 (cstr ant)) (take 31 (cstr rcv)).
(** sbp_sender_to_rtcm_stn_id: sbp_rtcm3.c:81-86 *)
Definition stn_of_sender (s : Z) : Z := Z.land s 0x0FFF.
(** sbp_to_rtcm3_1006: sbp_rtcm3.c:238-243 *)
Definition sbp_to_1006 (x y z : dbl) (st : ost) : d1006 := mkd1006 (stn_of_sender (o_sender st)) x y z (o_height st).
(** generate_rtcm3_1033: sbp_rtcm3.c:245-279 *)
Definition generate_1033 (st : ost) : msg_1033 := mk1033 (stn_of_sender (o_sender st)) (o_ant st) 0 [] (o_rcv st) [] [].
(** rtcm3_1033_to_1008: sbp_rtcm3.c:282-309; the serial number is guarded by the counter of the (zeroed) destination, so it is never copied *)
Definition m1033_to_1008 (m : msg_1033) : msg_1008 := mk1008 (mk1007 (m33_stn_id m) (m33_ant_descriptor m) (m33_ant_setup_id m)) [].
(** sbp2rtcm_base_pos_ecef_cb: sbp_rtcm3.c:405-433; the buffers passed to the write callback *)
Definition base_pos_cb (sender : Z) (x y z : dbl) (st : ost) : res (ost * list (list Z)) :=
  let st := mkost sender (o_known st) (o_height st) (o_ant st) (o_rcv st) in
  bind (quantise_1006 (sbp_to_1006 x y z st)) (fun m6 =>
  bind (encode_rtcm3_frame (encode_1006 m6)) (fun f6 =>
  if o_known st then
    let m33 := generate_1033 st in
    bind (encode_rtcm3_frame (encode_1008 (m1033_to_1008 m33))) (fun f8 =>
    bind (encode_rtcm3_frame (encode_1033 m33)) (fun f33 => Ok (st, [f6; f8; f33])))
  else Ok (st, [f6]))).
(** GLO_BIAS_RESOLUTION: sbp_rtcm3_internal.h:25, rtcm3_sbp_internal.h:51 *)
Definition GLO_BIAS_RESOLUTION : dbl := dofZ 50.
(** sbp_to_rtcm3_1230: sbp_rtcm3.c:310-331, metres *)
Definition bias_m (b : Z) : dbl := ddiv (dofZ b) GLO_BIAS_RESOLUTION.
(** (int16_t)round(m * 50): encode.c:829-848; only for the signals of the mask *)
Definition q_bias (mask bit : Z) (m : dbl) : res Z :=
  if Z.testbit mask bit then to_int (-32768) 32767 (dround (dmul m (dofZ 50))) else Ok 0.
(** sbp2rtcm_glo_biases_cb: sbp_rtcm3.c:435-448 *)
Definition glo_biases_cb (sender mask l1ca l1p l2ca l2p : Z) (st : ost) : res (ost * list (list Z)) :=
  let st := mkost sender (o_known st) (o_height st) (o_ant st) (o_rcv st) in
  bind (q_bias mask 3 (bias_m l1ca)) (fun a => bind (q_bias mask 2 (bias_m l1p)) (fun b =>
  bind (q_bias mask 1 (bias_m l2ca)) (fun c => bind (q_bias mask 0 (bias_m l2p)) (fun d =>
  bind (encode_rtcm3_frame (encode_1230 (mk1230 (stn_of_sender sender) 0 mask a b c d))) (fun f => Ok (st, [f])))))).
(** what a user of the converter does; other callbacks only overwrite sender_id *)
Inductive oev :=
| SetHeight (h : dbl) | SetDescriptors (ant rcv : list Z)
| BasePos (sender : Z) (x y z : dbl) | GloBiases (sender mask l1ca l1p l2ca l2p : Z) | OtherMsg (sender : Z).
Definition ostep (st : ost) (e : oev) : res (ost * list (list Z)) :=
  match e with
  | SetHeight h => Ok (snd (set_ant_height h st), [])
  | SetDescriptors a r => Ok (set_descriptors a r st, [])
  | BasePos s x y z => base_pos_cb s x y z st
  | GloBiases s m a b c d => glo_biases_cb s m a b c d st
  | OtherMsg s => Ok (mkost s (o_known st) (o_height st) (o_ant st) (o_rcv st), [])
  end.
Fixpoint orun (st : ost) (es : list oev) : res (ost * list (list Z)) :=
  match es with
  | [] => Ok (st, [])
  | e :: es => bind (ostep st e) (fun '(st, o1) => bind (orun st es) (fun '(st, o2) => Ok (st, o1 ++ o2)))
  end.

(** ** RTCM to SBP *)
(** sbp_msg_base_pos_ecef_t, sbp_msg_glo_biases_t with the sender id *)
Inductive smsg := SBasePos (sender : Z) (x y z : dbl) | SGloBiases (sender mask l1ca l1p l2ca l2p : Z).
(** (double)(tmp) / 10000.0: decode.c:564-572 *)
Definition arp_m (n : Z) : dbl := ddiv (dofZ n) (dofZ 10000).
(** rtcm3_1005_to_sbp, rtcm3_1006_to_sbp: rtcm3_sbp.c:959-971 (the antenna height is not used) *)
Definition base_pos_of (m : msg_1005) : smsg := SBasePos (sender_of (stn_id m)) (arp_m (arp_x m)) (arp_m (arp_y m)) (arp_m (arp_z m)).
(** tmp * 0.02: decode.c:950-974; 0.0 when the mask does not announce the signal *)
Definition bias_decoded (mask bit n : Z) : dbl := if Z.testbit mask bit then dmul (dofZ n) (ddiv (dofZ 2) (dofZ 100)) else dofZ 0.
(** (s16)rint(m * GLO_BIAS_RESOLUTION): rtcm3_sbp.c:1143-1150 *)
Definition s16_bias (m : dbl) : res Z := to_int (-32768) 32767 (drint (dmul m GLO_BIAS_RESOLUTION)).
(** rtcm3_1230_to_sbp: rtcm3_sbp.c:1132-1158 *)
Definition m1230_to_sbp (m : msg_1230) : res smsg :=
  if bias_indicator m =? 0 then
    bind (s16_bias (bias_decoded (fdma_signal_mask m) 3 (l1_ca m))) (fun a => bind (s16_bias (bias_decoded (fdma_signal_mask m) 2 (l1_p m))) (fun b =>
    bind (s16_bias (bias_decoded (fdma_signal_mask m) 1 (l2_ca m))) (fun c => bind (s16_bias (bias_decoded (fdma_signal_mask m) 0 (l2_p m))) (fun d =>
    Ok (SGloBiases (sender_of (m230_stn_id m)) (fdma_signal_mask m) a b c d)))))
  else Ok (SGloBiases (sender_of (m230_stn_id m)) (fdma_signal_mask m) 0 0 0 0).

(** strstr(s, name) != NULL *)
Fixpoint starts_with (s name : list Z) : bool :=
  match name, s with [], _ => true | n :: name, c :: s => (n =? c) && starts_with s name | _, [] => false end.
Fixpoint strstr (s name : list Z) : bool :=
  starts_with s name || match s with [] => false | _ :: s => strstr s name end.
(** decimal constants: n / 10^k as a correctly rounded double *)
Definition dec1 (n : Z) : dbl := ddiv (dofZ n) (dofZ 10).
Definition dec2 (n : Z) : dbl := ddiv (dofZ n) (dofZ 100).
(** the if-chain of rtcm3_1033_to_sbp: rtcm3_sbp.c:973-1130 with the constants of rtcm3_sbp_internal.h:63-103.
    A row: the names tested, the mask, and the biases in metres (L1 C/A, L1 P, L2 C/A, L2 P) *)
Definition row : Type := list string * Z * (dbl * dbl * dbl * dbl).
Definition two (name : string) (l1ca l2p : dbl) : row := ([name], 9, (l1ca, dofZ 0, dofZ 0, l2p)).
Definition bias_rows : list row := [
  two "Geo++ GNSMART (GLO=ASH)" (dec1 (-147)) (dec1 (-162));
  two "Geo++ GNSMART (GLO=HEM)" (dec1 (-3)) (dec1 35);
  two "Geo++ GNSMART (GLO=JAV)" (dec1 (-15)) (dec1 (-81));
  two "Geo++ GNSMART (GLO=JPS)" (dec1 (-37)) (dec1 7);
  (["Geo++ GNSMART (GLO=LEI)"; "Geo++ GNSMART (GLO=NOV)"]%string, 9, (dec1 (-707), dofZ 0, dofZ 0, dec1 (-663)));
  two "Geo++ GNSMART (GLO=NAV)" (dec1 4) (dec1 21);
  two "Geo++ GNSMART (GLO=NVR)" (dec1 1167) (dofZ 187);
  two "Geo++ GNSMART (GLO=SEP)" (dofZ 0) (dofZ 0);
  two "Geo++ GNSMART (GLO=SOK)" (dec1 (-707)) (dec1 (-663));
  two "Geo++ GNSMART (GLO=TPS)" (dec2 (-256)) (dec2 374);
  two "Geo++ GNSMART (GLO=TRM)" (dec1 188) (dec1 232);
  (["TRIMBLE"; "ASHTECH"]%string, 15, (dec2 1906, dec2 1906, dec2 1906, dec2 1906));
  (["LEICA"; "NOV"; "GEOMAX"]%string, 15, (dec2 (-7194), dec2 (-7194), dec2 (-7194), dec2 (-7194)));
  (["SEPT"]%string, 15, (dofZ 0, dofZ 0, dofZ 0, dofZ 0));
  (["TPS"]%string, 9, (dofZ 0, dofZ 0, dofZ 0, dofZ 0));
  two "JAVAD" (dec1 (-15)) (dec1 (-81));
  two "NAVCOM" (dec1 4) (dec1 21);
  two "HEMI" (dec1 (-2)) (dec1 34)].
Fixpoint find_row (s : list Z) (rows : list row) : option row :=
  match rows with
  | [] => None
  | r :: rows => if existsb (fun n => strstr s (txt n)) (fst (fst r)) then Some r else find_row s rows
  end.
(** rtcm3_1033_to_sbp; the 33-byte array rcv_descriptor is zeroed before decoding (decode.c:886), so the string is what precedes the first NUL
    of the received text.  The caller zeroes the SBP message (rtcm3_sbp.c:380). *)
Definition m1033_to_sbp (m : msg_1033) : res smsg :=
  match find_row (cstr (rcv_descriptor m)) bias_rows with
  | Some (_, mask, (a, b, c, d)) =>
    bind (s16_bias a) (fun a => bind (s16_bias b) (fun b => bind (s16_bias c) (fun c => bind (s16_bias d) (fun d =>
    Ok (SGloBiases (sender_of (m33_stn_id m)) mask a b c d)))))
  | None => Ok (SGloBiases (sender_of (m33_stn_id m)) 0 0 0 0 0)
  end.
(** MSG_1230_TIMEOUT_SEC: rtcm3_sbp_internal.h *)
Definition MSG_1230_TIMEOUT_MS : Z := 120000.
(** no_1230_received: rtcm3_sbp.c:1286-1293 *)
Definition no_1230_received (now last : gtime) : bool :=
  negb (gps_time_valid last) || (MSG_1230_TIMEOUT_MS <? gpsdifftime now last).
(** message type: rtcm3_sbp.c:144-146 *)
Definition frame_type (p : list Z) : Z := Z.lor (Z.shiftl (znth 0 0 p) 4) (Z.land (Z.shiftr (znth 0 1 p) 4) 15).
(** rtcm2sbp_convert... dispatch of the station messages: rtcm3_sbp.c:134-404.  [now]: time_from_input_data, None while the time truth is
    unsolved (1033 and 1230 are then not looked at, rtcm3_sbp.c:193-197); [last]: last_1230_received; [g]: the uninitialised rtcm_msg_1005 on
    the stack.  Simplification: every other message type leaves [last] alone and emits nothing here. *)
Definition sta_rx (g : msg_1005) (now : option gtime) (last : gtime) (p : list Z) : res (gtime * list smsg) :=
  if len p <? 2 then Ok (last, [])
  else
    let ty := frame_type p in
    if ty =? 1005 then
      match run_dec decode_1005 p with Ok m => Ok (last, [base_pos_of m]) | Ub => Ub | _ => Ok (last, []) end
    else if ty =? 1006 then
      match run_dec (decode_1006 g) p with Ok m => Ok (last, [base_pos_of (m6_1005 m)]) | Ub => Ub | _ => Ok (last, []) end
    else match now with
    | None => Ok (last, [])
    | Some t =>
      if ty =? 1033 then
        match run_dec decode_1033 p with
        | Ok m => if no_1230_received t last then bind (m1033_to_sbp m) (fun s => Ok (last, [s])) else Ok (last, [])
        | Ub => Ub | _ => Ok (last, []) end
      else if ty =? 1230 then
        match run_dec decode_1230 p with
        | Ok m => bind (m1230_to_sbp m) (fun s => Ok (t, [s]))
        | Ub => Ub | _ => Ok (last, []) end
      else Ok (last, [])
    end.
(** a history of received payloads with the time known when each arrived; rtcm2sbp_init: rtcm3_sbp.c:107-108 *)
Fixpoint rx_run (g : msg_1005) (last : gtime) (h : list (option gtime * list Z)) : res (gtime * list smsg) :=
  match h with
  | [] => Ok (last, [])
  | (now, p) :: h => bind (sta_rx g now last p) (fun '(last, o1) => bind (rx_run g last h) (fun '(last, o2) => Ok (last, o1 ++ o2)))
  end.
