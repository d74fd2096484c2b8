(** The L1-only observation messages 1002 and 1010 in IEEE double arithmetic, and the choice between the four observation messages rtcm3tosbp converts:
    c/librtcm/src/decode.c:371-413, 704-752, c/gnss_converters/src/rtcm3_sbp.c:213-232, 264-279, 787-894.  LegVal_model.v has 1004 and 1012 and the conversion. *)
From Verif Require Import Base Bits_model Bitstream_model RtcmLegacy_model Signals_model Double_model Sbp2Rtcm_model MsmVal_model LegVal_model Options_model Esf_model.

(** rtcm3_decode_1002_bitstream / rtcm3_decode_1010_bitstream, one satellite: decode.c:387-411, 722-750.  obs[L2_FREQ] has no valid flag (init_sat_data) *)
Definition get_raw1 (s : sys) : dec (lraw * Z) :=
  sv <- get_u 6 ;; c1 <- get_u 1 ;;
  fc <- (match s with GPS => ret 0 | GLO => get_u 5 end) ;;
  p1 <- get_u (match s with GPS => 24 | GLO => 25 end) ;;
  ph1 <- get_s 20 ;; lk1 <- get_u 7 ;; amb <- get_u (amb_width s) ;; cn1 <- get_u 8 ;;
  ret (mklraw sv fc p1 ph1 lk1 amb cn1 0 0 0 0, c1).
Definition sat_value1 (s : sys) (w : lraw * Z) : rxsat :=
  let x := sat_value s (fst w, snd w, 0) in mkrxsat (x_sv x) (x_c1 x) 0 (x_l1 x) no_dfreq.
Definition kind1 (s : sys) : kind := match s with GPS => K1002 | GLO => K1010 end.
(** decode.c:371-413, 704-752 *)
Definition decode_leg1 (s : sys) : dec rxmsg :=
  num <- get_u 12 ;; stn <- get_u 12 ;; tow <- get_u (tow_width s) ;; sync <- get_u 1 ;; n <- get_u 5 ;;
  div <- get_u 1 ;; smooth <- get_u 3 ;;
  if negb (num =? k_num (kind1 s)) then mismatch
  else if max_tow s <? tow then fail
  else l <- get_list (w <- get_raw1 s ;; ret (sat_value1 s w)) (Z.to_nat n) ;; ret (mkrxmsg (mkhdr stn tow sync div smooth) l).
(** the switch of rtcm2sbp_decode_payload: rtcm3_sbp.c:213-279; 1001, 1003 and (not listed there) 1009, 1011 give nothing *)
Definition decode_any (num : Z) : option (sys * dec rxmsg) :=
  if num =? 1002 then Some (GPS, decode_leg1 GPS) else if num =? 1004 then Some (GPS, decode_leg GPS)
  else if num =? 1010 then Some (GLO, decode_leg1 GLO) else if num =? 1012 then Some (GLO, decode_leg GLO) else None.
(** the observations of message [num] (before send_observations); None: no result, or undefined behaviour.  sbp_signal_biases: rtcm3_sbp.c:863 *)
Definition leg_obs (num_of : code -> Z) (op : opts) (num : Z) (p : list Z) : option (hdr * list pobs) :=
  match decode_any num with
  | None => None
  | Some (s, d) =>
      match run_dec d p with
      | Ok m => match leg_to_sbp_b num_of (fun k => dofflt (op_signal op k)) s m with Some l => Some (rx_hdr m, l) | None => None end
      | _ => None
      end
  end.
