(** Specification vocabulary for C86: observations that an RTCM MSM message can carry without any loss. *)
From Coq Require Import Reals.
From Verif Require Import Base RtcmMsm_model Signals_model Sbp2Rtcm_model Sbp2Msm_model Sbp2Msm_spec MsmVal_spec RxTx_spec ObsOut_spec.
Local Open Scope Z_scope.

Section Spec.
Variables (carrier num_of : code -> Z) (code_of : Z -> code) (ty : Z) (tx rx : list Z) (masked : RtcmMsm_model.cons -> bool).
(** the values of [o] are close to the other ones of its satellite in the epoch [os] (MsmVal_spec), sender and receiver know the GLONASS channel if there is a phase
    or a Doppler, and an MSM4 has no Doppler *)
Definition close (os : list pobs) (o : pobs) : Prop :=
  near_code code_of os o /\
  (flag o 1 = true -> freq_known code_of tx o /\ freq_known_rx code_of ty rx o /\ near_phase carrier code_of tx os o) /\
  (flag o 3 = true -> ty = 5 /\ freq_known code_of tx o /\ near_rate carrier code_of tx os o).
(** a well-formed observation (C85) of a constellation and signal that MSM carries and the receiver accepts, with whole dB-Hz and close values *)
Definition settled (os : list pobs) (o : pobs) : Prop :=
  obs_ok num_of masked o /\ o_cn0 o mod 4 = 0 /\ ~ of_cons code_of cQZS o /\ (forall c, cons_of (sig_of code_of o) = Some c -> masked c = false) /\ close os o.
End Spec.
