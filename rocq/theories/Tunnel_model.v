(** Model of the messages that pass through the converters without being interpreted: SBP messages tunnelled in RTCM 4062, log texts in
    RTCM 1029, the warning about unsupported MSM1-3 messages, and raw navigation frames (RTCM 4075, only SBAS is forwarded).
    c/gnss_converters_extra/src/sbp_rtcm3.c:919-1022, 1099-1122, sbp_conv.c:52-119, c/gnss_converters/src/rtcm3_sbp.c:133-204, 352-358, 566-613,
    1295-1365, c/gnss_converters/src/rtcm3_sbp_ephemeris.c:397-427, c/librtcm/src/decode.c:1485-1551. *)
From Verif Require Import Base Bitstring Bits_model Bitstream_model RtcmStation_model RtcmFrameOut_model Log1029_model Subframes_model StaConv_model Signals_model.
From Verif Require ObsBuffer_model RtcmMsm_model.

(** ** SBP to RTCM *)
(** message numbers of libsbp (external) *)
Definition SBP_MSG_LOG : Z := 0x0401.
Definition SBP_MSG_OSR : Z := 0x0640.
Definition SBP_MSG_SSR_ORBIT_CLOCK : Z := 0x05DD.
Definition SBP_MSG_SSR_CODE_BIASES : Z := 0x05E1.
Definition SBP_MSG_SSR_PHASE_BIASES : Z := 0x05E6.
Definition SBP_MSG_SSR_GRID_DEFINITION_DEP_A : Z := 0x05F5.
Definition SBP_MSG_SSR_GRIDDED_CORRECTION_DEP_A : Z := 0x05FA.
Definition SBP_MSG_SSR_STEC_CORRECTION_DEP_A : Z := 0x05FB.

(** the seven callbacks sbp2rtcm_sbp_osr_cb ... sbp2rtcm_sbp_ssr_stec_correction_cb: sbp_rtcm3.c:919-1022; they differ in [ty] only *)
Definition wrap_cb (ty sender : Z) (msg : list Z) : res (list Z) := encode_rtcm3_frame (encode_4062 (mk4062 ty sender msg)).
(** sbp2rtcm_sbp_log_cb: sbp_rtcm3.c:1099-1122; msg[0] is the level (not used), the text follows; None: the write callback is not called.
    rtcm_msg_log.utf8_code_units has 255 entries, len - 1 <= 254 *)
Definition log_cb (sender : Z) (msg : list Z) : option (res (list Z)) :=
  if len msg <? 2 then None
  else Some (encode_rtcm3_frame (encode_1029 (mk1029 sender 0 0 0 (take (len msg - 1) (drop 1 msg))))).
(** the switch of sbp_conv (sbp_conv.c:59-117) for these types; sbp2rtcm.c:106-166 registers the same callbacks for the same types.
    None: not one of these types, or the callback writes nothing *)
Definition tunnel_tx (ty sender : Z) (msg : list Z) : option (res (list Z)) :=
  if ty =? SBP_MSG_OSR then Some (wrap_cb SBP_MSG_OSR sender msg)
  else if ty =? SBP_MSG_SSR_ORBIT_CLOCK then Some (wrap_cb SBP_MSG_SSR_ORBIT_CLOCK sender msg)
  else if ty =? SBP_MSG_SSR_PHASE_BIASES then Some (wrap_cb SBP_MSG_SSR_PHASE_BIASES sender msg)
  else if ty =? SBP_MSG_SSR_CODE_BIASES then Some (wrap_cb SBP_MSG_SSR_CODE_BIASES sender msg)
  else if ty =? SBP_MSG_SSR_GRIDDED_CORRECTION_DEP_A then Some (wrap_cb SBP_MSG_SSR_GRIDDED_CORRECTION_DEP_A sender msg)
  else if ty =? SBP_MSG_SSR_GRID_DEFINITION_DEP_A then Some (wrap_cb SBP_MSG_SSR_GRID_DEFINITION_DEP_A sender msg)
  else if ty =? SBP_MSG_SSR_STEC_CORRECTION_DEP_A then Some (wrap_cb SBP_MSG_SSR_STEC_CORRECTION_DEP_A sender msg)
  else if ty =? SBP_MSG_LOG then log_cb sender msg
  else None.

(** ** RTCM to SBP *)
(** what the callback is given: an SBP message [ty] with the encoded payload [data]; a log message; a raw SBAS message *)
Inductive tout :=
| TSbp (sender ty : Z) (data : list Z)
| TLog (sender level : Z) (text : list Z)
| TSbas (sender prn tow mtype : Z) (data : list bool).

(** send_sbp_log_message: rtcm3_sbp.c:1329-1350; sbp_msg_log_text_set_raw (libsbp, external) accepts every text of at most 254 bytes *)
Definition log_message (level : Z) (text : list Z) (stn : Z) : list tout :=
  if SBP_MAX_PAYLOAD_LEN <=? len text then [] else [TLog (ObsBuffer_model.sender_of stn) level text].
(** send_1029: rtcm3_sbp.c:1295-1327 with RTCM_1029_LOGGING_LEVEL = 6 (rtcm3_sbp_internal.h:31) *)
Definition send_1029 (m : msg_1029) : list tout :=
  match log_1029 (utf8_code_units m) with Some text => log_message 6 text (m29_stn_id m) | None => [] end.
(** "MSM1-3 Messages currently not supported": rtcm3_sbp.c:1360 *)
Definition MSM_WARNING : list Z := [77; 83; 77; 49; 45; 51; 32; 77; 101; 115; 115; 97; 103; 101; 115; 32; 99; 117; 114; 114; 101; 110; 116; 108; 121; 32;
  110; 111; 116; 32; 115; 117; 112; 112; 111; 114; 116; 101; 100].
(** send_MSM_warning: rtcm3_sbp.c:1352-1365; getbitu(pos 12, len 24) fails iff fewer than 36 bits are there; stn_id is passed as u16 *)
Definition send_MSM_warning (warned : bool) (p : list Z) : bool * list tout :=
  if negb warned then
    (true, if 36 <=? 8 * len p then log_message 4 MSM_WARNING (getbitu p 12 24 mod 65536) else [])
  else (warned, []).

(** a read of n bits by rtcm_getbitu, without regard to the length of the message: undefined when it leaves the memory [mem] *)
Definition raw_u (n : Z) : dec Z := fun bs => if len bs <? n then DUb else DOk (val_be (take n bs)) (drop n bs).
(** rtcm_ndf_frame: c/librtcm/include/rtcm3/messages.h:392-405 *)
Record ndf_frame := mkndf { nf_sys : Z; nf_num : Z; nf_ext : Z; nf_sig : Z; nf_epoch : Z; nf_cont : Z; nf_size : Z; nf_words : list Z }.
(** the while loop: decode.c:1541-1547; at most 4095 bits, 128 words, the size of the array *)
Fixpoint raw_words (k : nat) (remaining : Z) : dec (list Z) :=
  match k with
  | O => ret []
  | S k => if remaining <=? 0 then ret []
           else let next := if remaining <? 32 then remaining else 32 in
                w <- raw_u next ;; ws <- raw_words k (remaining - next) ;; ret (w :: ws)
  end.
Definition raw_frame : dec ndf_frame :=
  a <- raw_u 4 ;; b <- raw_u 6 ;; c <- raw_u 4 ;; d <- raw_u 5 ;; e <- raw_u 30 ;; f <- raw_u 1 ;; g <- raw_u 12 ;;
  if 4096 <? g then fail else ws <- raw_words 128 g ;; ret (mkndf a b c d e f g ws).
(** rtcm3_decode_4075: decode.c:1485-1551.  The position "uint16_t bit" cannot wrap: the memory read from has at most 4096 bytes. *)
Definition decode_4075 : dec (Z * list ndf_frame) :=
  ty <- raw_u 12 ;; if negb (ty =? 4075) then mismatch else
  stn <- raw_u 12 ;; r <- raw_u 2 ;; if negb (r =? 0) then fail else
  n <- raw_u 6 ;; if 63 <? n then fail else
  fs <- get_list raw_frame (Z.to_nat n) ;; ret (stn, fs).
(** handle_ndf_frame: rtcm3_sbp_ephemeris.c:397-427; sbas_decode_subframe checks the PRN first: sbas.c:79-83.  The number of words passed is
    the size rounded up to words = the number of words read *)
Definition ndf_out (stn : Z) (f : ndf_frame) : list tout :=
  if nf_sys f =? 3 then
    let prn := nf_num f + 120 in
    if negb (prn_in RtcmMsm_model.cSBAS prn) then []
    else match sbas_step prn (nf_epoch f) (nf_words f) with
         | Some (SbasRaw p t mt d) => [TSbas (ObsBuffer_model.sender_of stn) p t mt d]
         | _ => []
         end
  else [].

Definition msm123 : list Z := [1071; 1072; 1073; 1081; 1082; 1083; 1091; 1092; 1093; 1101; 1102; 1103; 1111; 1112; 1113; 1121; 1122; 1123].
(** rtcm2sbp_decode_payload for these message types: rtcm3_sbp.c:133-204, 352-358, 566-613.  [solved]: the time truth; [mem]: the receive
    buffer from the first byte of the payload on, of which [n] bytes are the payload; [warned]: sent_msm_warning; [sbp_ok ty data]: whether
    sbp_message_decode (libsbp, external) accepts.  Simplification: every other message type emits nothing here; the flush of the observation
    buffer after an MSM message (rtcm3_sbp.c:622-635) is in ObsBuffer_model. *)
Definition tunnel_rx (sbp_ok : Z -> list Z -> bool) (solved : bool) (mem : list Z) (n : Z) (warned : bool) : res (bool * list tout) :=
  let p := take n mem in
  if len p <? 2 then Ok (warned, [])
  else
    let ty := frame_type p in
    if negb solved && negb (existsb (Z.eqb ty) ObsBuffer_model.ungated) then Ok (warned, [])
    else if ty =? 1029 then
      match run_dec decode_1029 p with Ok m => Ok (warned, send_1029 m) | Ub => Ub | _ => Ok (warned, []) end
    else if existsb (Z.eqb ty) msm123 then Ok (send_MSM_warning warned p)
    else if ty =? 4062 then
      match run_dec decode_4062 p with
      | Ok m => Ok (warned, if sbp_ok (msg_type m) (data m) then [TSbp (sender_id m) (msg_type m) (data m)] else [])
      | Ub => Ub | _ => Ok (warned, []) end
    else if ty =? 4075 then
      match run_dec decode_4075 mem with Ok (stn, fs) => Ok (warned, flat_map (ndf_out stn) fs) | Ub => Ub | _ => Ok (warned, []) end
    else Ok (warned, []).
(** a history; sent_msm_warning is false after rtcm2sbp_init (rtcm3_sbp.c:111) *)
Record rx_event := mkrx { rx_solved : bool; rx_mem : list Z; rx_len : Z }.
Fixpoint tunnel_run (sbp_ok : Z -> list Z -> bool) (warned : bool) (h : list rx_event) : res (bool * list tout) :=
  match h with
  | [] => Ok (warned, [])
  | e :: h => bind (tunnel_rx sbp_ok (rx_solved e) (rx_mem e) (rx_len e) warned) (fun '(w, o1) =>
              bind (tunnel_run sbp_ok w h) (fun '(w, o2) => Ok (w, o1 ++ o2)))
  end.
