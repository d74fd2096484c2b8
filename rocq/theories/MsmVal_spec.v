(** C65: what it means that an SBP observation survives the trip through an MSM4/MSM5 message.  Independent of the arithmetic of the model:
    conditions are stated in integers or over the reals (metres, metres per second). *)
From Coq Require Import Reals.
From Verif Require Import Base RtcmMsm_model RtcmMsm_spec Signals_model Signals_spec Sbp2Rtcm_model Sbp2Msm_model Sbp2Msm_spec.

(** bit [k] of a flag byte: 0 pseudorange valid, 1 carrier phase valid, 2 half-cycle ambiguity resolved, 3 Doppler valid *)
Definition flag (o : pobs) (k : Z) : bool := Z.testbit (o_flags o) k.
(** an SBP observation as it is buffered (valid pseudorange), with a pseudorange of at most 254 light-milliseconds (76147 km) and a Doppler
    below 30 kHz *)
Definition obs_in_range (o : pobs) : Prop :=
  0 <= o_P o < 2 ^ 32 /\ - 2 ^ 31 <= o_Li o < 2 ^ 31 /\ 0 <= o_Lf o < 256 /\ - 2 ^ 15 <= o_Di o < 2 ^ 15 /\ 0 <= o_Df o < 256 /\
  byte (o_cn0 o) /\ byte (o_lock o) /\ byte (o_flags o) /\ flag o 0 = true /\
  20 * o_P o <= 254 * 299792458 /\ -30000 <= o_Di o < 30000.

Section Spec.
(** carrier frequencies (Hz) of the signals whose constants come from libswiftnav; the signal code numbering *)
Variable carrier : code -> Z.
Variable code_of : Z -> code.
(** GLONASS: 1602 MHz + n * 562.5 kHz and 1246 MHz + n * 437.5 kHz for channel n = fcn - 7; GPS: 1575.42 and 1227.60 MHz *)
Definition glo_code (k : code) : bool := match k with GLO_L1OF | GLO_L1P | GLO_L2OF | GLO_L2P => true | _ => false end.
Definition hertz (k : code) (fcn : Z) : Z :=
  match k with
  | GPS_L1CA | GPS_L1P | GPS_L1CI | GPS_L1CQ | GPS_L1CX => 1575420000
  | GPS_L2CM | GPS_L2CL | GPS_L2CX | GPS_L2P => 1227600000
  | GLO_L1OF | GLO_L1P => 1602000000 + (fcn - 7) * 562500
  | GLO_L2OF | GLO_L2P => 1246000000 + (fcn - 7) * 437500
  | k => carrier k
  end.
(** every GNSS carrier lies in 1.1 .. 1.7 GHz *)
Definition carriers_ok : Prop := forall k, 1100000000 <= carrier k <= 1700000000.
(** a GLONASS channel map of 29 entries: channel 0..13, or 255 for unknown *)
Definition fcn_map_ok (fcns : list Z) : Prop := len fcns = 29 /\ Forall (fun f => 0 <= f <= 13 \/ f = 255) fcns.
Definition fcn_of (fcns : list Z) (o : pobs) : Z := znth 255 (o_sat o) fcns.
(** the sender knows the carrier frequency of the signal; its value *)
Definition freq_known (fcns : list Z) (o : pobs) : Prop := glo_code (sig_of code_of o) = true -> fcn_of fcns o <> 255.
Definition freq (fcns : list Z) (o : pobs) : R := IZR (hertz (sig_of code_of o) (fcn_of fcns o)).

Open Scope R_scope.
Definition C_M_S : R := 299792458.
(** pseudorange in metres (2 cm units), carrier phase in metres, range rate in metres per second *)
Definition range_m (o : pobs) : R := IZR (o_P o) / 50.
Definition phase_m (fcns : list Z) (o : pobs) : R := (IZR (o_Li o) + IZR (o_Lf o) / 256) * C_M_S / freq fcns o.
Definition rate_m_s (fcns : list Z) (o : pobs) : R := (IZR (o_Di o) + IZR (o_Df o) / 256) * C_M_S / freq fcns o.
Close Scope R_scope.

(** the other observations of the same satellite *)
Definition same_sat (o o2 : pobs) : Prop := cons_of (sig_of code_of o2) = cons_of (sig_of code_of o) /\ o_sat o2 = o_sat o.
(** pseudorange within 146 m of every other pseudorange of the satellite *)
Definition near_code (os : list pobs) (o : pobs) : Prop := forall o2, In o2 os -> same_sat o o2 -> (Rabs (range_m o - range_m o2) <= 146)%R.
(** carrier phase within 1020 m of every pseudorange of the satellite *)
Definition near_phase (fcns : list Z) (os : list pobs) (o : pobs) : Prop :=
  forall o2, In o2 os -> same_sat o o2 -> (Rabs (phase_m fcns o - range_m o2) <= 1020)%R.
(** Doppler within 1.1 m/s of every Doppler of the satellite *)
Definition near_rate (fcns : list Z) (os : list pobs) (o : pobs) : Prop :=
  forall o2, In o2 os -> same_sat o o2 -> flag o2 3 = true -> freq_known fcns o2 -> (Rabs (rate_m_s fcns o - rate_m_s fcns o2) <= 11 / 10)%R.
(** the receiver knows the carrier frequency: MSM5 carries the GLONASS channel, for MSM4 it has to be in the receiver's own map *)
Definition freq_known_rx (ty : Z) (rx : list Z) (o : pobs) : Prop := glo_code (sig_of code_of o) = true -> ty = 4 -> fcn_of rx o <> 255.
(** the receiver's map does not contradict the sender's: a channel that both know is the same *)
Definition maps_agree (fcns rx : list Z) : Prop := forall s, 1 <= s <= 28 -> znth 255 s rx = 255 \/ znth 255 s rx = znth 255 s fcns \/ znth 255 s fcns = 255.

(** signals rtcm3tosbp discards on reception *)
Definition discarded_signal (k : code) : bool :=
  match k with
  | GLO_L1P | GLO_L2P | BDS3_B1CI | BDS3_B1CQ | BDS3_B1CX | BDS3_B7I | BDS3_B7Q | BDS3_B7X | BDS3_B3I | BDS3_B3Q | BDS3_B3X => true
  | _ => false
  end.
(** [o'] is what is received of [o]: nothing in it is wrong *)
Definition received (ty : Z) (o o' : pobs) : Prop :=
  o_sat o' = o_sat o /\ sig_of code_of o' = sig_of code_of o /\
  flag o' 0 = true /\ o_P o' = o_P o /\
  (flag o' 1 = true -> flag o 1 = true /\ o_Li o' = o_Li o /\ o_Lf o' = o_Lf o /\ flag o' 2 = flag o 2) /\
  (flag o' 3 = true -> ty = 5 /\ flag o 3 = true /\ o_Di o' = o_Di o /\ o_Df o' = o_Df o) /\
  o_lock o' = o_lock o mod 16 /\
  (o_cn0 o < 254 -> Z.abs (o_cn0 o' - o_cn0 o) <= 2 /\ o_cn0 o' mod 4 = 0).
(** everything valid in [o] that is close to the rest of its satellite arrives *)
Definition complete (ty : Z) (fcns rx : list Z) (os : list pobs) (o o' : pobs) : Prop :=
  (flag o 1 = true -> freq_known fcns o -> freq_known_rx ty rx o -> near_phase fcns os o -> flag o' 1 = true) /\
  (ty = 5 -> flag o 3 = true -> freq_known fcns o -> near_rate fcns os o -> flag o' 3 = true).
(** what becomes of observation [o] of the epoch [os]: [Some o'] arrives or nothing arrives.  [masked]: constellations the receiver discards *)
Definition outcome (ty : Z) (fcns rx : list Z) (masked : cons -> bool) (os : list pobs) (o : pobs) (r : option pobs) : Prop :=
  let dropped := (exists c, cons_of (sig_of code_of o) = Some c /\ masked c = true) \/ discarded_signal (sig_of code_of o) = true in
  match r with
  | Some o' => ~ dropped /\ received ty o o' /\ complete ty fcns rx os o o'
  | None => dropped \/ ~ near_code os o
  end.
End Spec.
