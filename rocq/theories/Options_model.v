(** The bias options of rtcm3tosbp and how the MSM receiver applies them: c/gnss_converters/src/options.c:14-70, c/rtcm3tosbp/src/rtcm3tosbp.c:268-287.
    The arrays hold C floats; an integer times a float is computed in single precision and then widened. *)
From Flocq Require Import IEEE754.Binary IEEE754.Bits.
From Verif Require Import Base RtcmLegacy_model RtcmMsm_model Signals_model Double_model Esf_model Ixcom_model Sbp2Msm_model MsmVal_model.

(** sbp_signal_biases[code] (metres), sbp_glo_code_bias[band] (metres per channel), sbp_glo_phase_bias[band] (cycles per channel); band false: L1, true: L2.
    options.c:14-25 *)
Record opts := mkopts { op_signal : code -> binary32; op_glo_code : bool -> binary32; op_glo_phase : bool -> binary32 }.
(** (glo_fcn - MSM_GLO_FCN_OFFSET) * sbp_glo_..._bias[..] *)
Definition channel_bias (fcn : Z) (b : binary32) : dbl := dofflt (fmul (fofZ (fcn - MSM_GLO_FCN_OFFSET) 0) b).
(** msm_glo_fcn_bias: options.c:40-70 *)
Definition msm_glo_fcn_bias (o : opts) (k : code) (fcn : Z) : dbl * dbl :=
  match k with
  | GLO_L1OF | GLO_L1P => if negb (fcn =? MSM_GLO_FCN_UNKNOWN) then (channel_bias fcn (op_glo_code o false), channel_bias fcn (op_glo_phase o false)) else (d0, d0)
  | GLO_L2OF | GLO_L2P => if negb (fcn =? MSM_GLO_FCN_UNKNOWN) then (channel_bias fcn (op_glo_code o true), channel_bias fcn (op_glo_phase o true)) else (d0, d0)
  | _ => (d0, d0)
  end.
(** the three biases of one cell: rtcm3_sbp.c:1575-1606 *)
Definition bias_of (o : opts) (k : code) (fcn : Z) : dbl * dbl * dbl :=
  let '(cb, pb) := msm_glo_fcn_bias o k fcn in (dofflt (op_signal o k), cb, pb).
