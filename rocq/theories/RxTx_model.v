(** The observation frames of sbp2rtcm with its own channel map and settings, for C82: sbp_buffer_to_msm, c/gnss_converters_extra/src/sbp_rtcm3.c:655-722. *)
From Verif Require Import Base Bits_model Bitstream_model RtcmMsm_model Signals_model Double_model Sbp2Rtcm_model Sbp2Msm_model MsmVal_model RtcmFrameOut_model Conv_model.

Section Out.
(** libswiftnav's carrier frequencies and code numbering; the GLONASS channel map of struct rtcm3_out_state *)
Context (carrier : code -> Z) (code_of : Z -> code) (fcns : list Z).
(** one pass of the last loop: sbp_rtcm3.c:711-720 (Conv_model.msm_frame is the case of an unknown channel map) *)
Definition out_frame (cfg : ocfg) (m : omsg) : res (list Z) :=
  match values carrier code_of fcns m with
  | None => Ub
  | Some dm => bind (encode_msm_d (c_type cfg) dm (drop 3 (repeat 0 (Z.to_nat FRAME_ARRAY_LEN)))) (fun p => encode_rtcm3_frame (fun _ => p))
  end.
(** the frames handed to the callback for one epoch: sbp_rtcm3.c:655-722 *)
Definition out_frames (cfg : ocfg) (e : epoch) : res (list (list Z)) :=
  match buffer_to_msm code_of cfg e with None => Ub | Some ms => all_ok (map (out_frame cfg) ms) end.
End Out.
