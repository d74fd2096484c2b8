(** The ephemeris callbacks of the SBP-to-RTCM converter: c/gnss_converters_extra/src/sbp_rtcm3.c:1024-1097.
    The payload is taken as the decoded structure (sbp_msg_ephemeris_*_t of libsbp, an empty submodule; the callbacks ignore the payload's length).
    Result: the bytes handed to the write callback; [Ub] when a conversion is undefined, an assertion fails or a write leaves the array.
    Parameters [c], [eps], [log2f]: as in SbpEph_model.v. *)
From Flocq Require Import Core IEEE754.Binary IEEE754.Bits.
From Verif Require Import Base Double_model RtcmEph_model SbpEph_model RtcmFrameOut_model.
Open Scope Z_scope.

Section Cb.
Variables (c : Z -> dbl) (eps : dbl) (log2f : binary32 -> binary32).
(** sbp2rtcm_sbp_gps_eph_cb: sbp_rtcm3.c:1024-1039 *)
Definition gps_eph_cb (s : skeph) : res (list Z) :=
  match sbp_to_gps_eph c eps log2f s with Some m => encode_rtcm3_frame (encode_gps m) | None => Ub end.
(** sbp2rtcm_sbp_glo_eph_cb: sbp_rtcm3.c:1041-1056.  [leap]: the leap seconds of the state, if known; [junk]: the uninitialised t_b of line 1049 *)
Definition glo_eph_cb (s : sgeph) (leap : option Z) (junk : Z) : res (list Z) :=
  match sbp_to_glo_eph c eps log2f s leap junk with Some m => encode_rtcm3_frame (encode_glo m) | None => Ub end.
(** sbp2rtcm_sbp_bds_eph_cb: sbp_rtcm3.c:1058-1075 *)
Definition bds_eph_cb (s : skeph) : res (list Z) :=
  match sbp_to_bds_eph c eps log2f s with Some m => encode_rtcm3_frame (encode_bds m) | None => Ub end.
(** sbp2rtcm_sbp_gal_eph_cb: sbp_rtcm3.c:1077-1097; EPH_SOURCE_GAL_INAV = 0, EPH_SOURCE_GAL_FNAV = 1 *)
Definition gal_eph_cb (s : skeph) : res (list Z) :=
  match sbp_to_gal_eph c s with
  | Some m =>
    if negb ((s_source s =? 0) || (s_source s =? 1)) then Ub
    else if s_source s =? 0 then encode_rtcm3_frame (encode_inav m) else encode_rtcm3_frame (encode_fnav m)
  | None => Ub
  end.
End Cb.

(** ** the receiving side: the ephemeris cases of rtcm2sbp_decode_payload, c/gnss_converters/src/rtcm3_sbp.c:186-205, 280-372.
    [p]: payload of the frame; [solved]: the time truth is known (needed for 1020 and 1044 only); [rover], [leap]: the state's time and leap seconds.
    Result: the SBP messages sent, with their sender (rtcm_stn_to_sbp_sender_id(0)).  Other messages, and what 1020 teaches about frequency channels, are elsewhere. *)
From Verif Require Import Bitstream_model Time_model StaConv_model ObsBuffer_model.
Inductive eph_msg := EGps (s : skeph) | EGlo (s : sgeph) | EBds (s : skeph) | EQzss (s : skeph) | EGal (s : skeph).
Definition emit {A} (mk : A -> eph_msg) (x : option A) : list (Z * eph_msg) := match x with Some s => [(ObsBuffer_model.sender_of 0, mk s)] | None => [] end.
Section Rx.
Variables (c : Z -> dbl) (adj : Z -> Z) (mw : Z -> Z -> option Z).
Definition eph_rx (solved : bool) (rover : gtime) (leap : option Z) (p : list Z) : list (Z * eph_msg) :=
  if len p <? 2 then []
  else
    let ty := frame_type p in
    if ty =? 1019 then match run_dec decode_gps p with Ok m => emit EGps (gps_eph_to_sbp c adj mw m) | _ => [] end
    else if ty =? 1042 then match run_dec decode_bds p with Ok m => emit EBds (Some (bds_eph_to_sbp c adj m)) | _ => [] end
    else if ty =? 1045 then match run_dec decode_fnav p with Ok m => emit EGal (gal_eph_to_sbp c adj mw m 1) | _ => [] end
    else if ty =? 1046 then match run_dec decode_inav p with Ok m => emit EGal (gal_eph_to_sbp c adj mw m 0) | _ => [] end
    else if negb solved then []
    else if ty =? 1020 then match run_dec decode_glo p with Ok m => emit EGlo (glo_eph_to_sbp c m rover leap) | _ => [] end
    else if ty =? 1044 then match run_dec decode_qzss p with Ok m => emit EQzss (Some (qzss_eph_to_sbp c adj m)) | _ => [] end
    else [].
End Rx.
