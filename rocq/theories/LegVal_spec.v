(** C68: what it means that an SBP observation epoch survives the trip through the legacy messages 1004 and 1012.  Independent of the arithmetic of the
    model: conditions are in integers or over the reals (metres). *)
From Coq Require Import Reals.
From Verif Require Import Base RtcmLegacy_model Signals_model Sbp2Rtcm_model MsmVal_spec.

(** a buffered SBP observation (valid pseudorange) with a pseudorange of at most 255 light-milliseconds (76447 km) *)
Definition leg_in_range (o : pobs) : Prop :=
  0 <= o_P o /\ 20 * o_P o <= 255 * 299792458 /\ - 2 ^ 31 <= o_Li o < 2 ^ 31 /\ 0 <= o_Lf o < 256 /\ byte (o_cn0 o) /\ byte (o_lock o) /\ byte (o_flags o) /\ flag o 0 = true.
(** the legacy formats carry only observations whose carrier phase is valid and free of the half-cycle ambiguity *)
Definition usable_obs (o : pobs) : bool := flag o 0 && flag o 1 && flag o 2.

Section Spec.
Variable code_of : Z -> code.
(** the first and the second signal of a satellite, GPS (1004) or GLONASS (1012) *)
Definition first_sig (s : sys) (k : code) : bool := match s, k with GPS, (GPS_L1CA | GPS_L1P) | GLO, (GLO_L1OF | GLO_L1P) => true | _, _ => false end.
Definition second_sig (s : sys) (k : code) : bool := match s, k with GPS, (GPS_L2CM | GPS_L2P) | GLO, (GLO_L2OF | GLO_L2P) => true | _, _ => false end.
(** the signal as which it arrives: the C/A (civil) signal of that carrier *)
Definition civil (s : sys) (second : bool) : code :=
  match s, second with GPS, false => GPS_L1CA | GPS, true => GPS_L2CM | GLO, false => GLO_L1OF | GLO, true => GLO_L2OF end.
Definition hz (s : sys) (second : bool) (fcn : Z) : Z :=
  match s, second with
  | GPS, false => 1575420000 | GPS, true => 1227600000
  | GLO, false => 1602000000 + (fcn - 7) * 562500 | GLO, true => 1246000000 + (fcn - 7) * 437500
  end.
(** GLONASS channel of an observation, 255: unknown; GPS: 0 *)
Definition channel (s : sys) (fcns : list Z) (o : pobs) : Z := match s with GPS => 0 | GLO => znth 255 (o_sat o) fcns end.
(** the satellites of a message: each observation of a first signal (GLONASS: with known channel), with the second-signal observation of the same satellite
    that follows it in the epoch *)
Fixpoint entries (s : sys) (fcns : list Z) (l : list pobs) : list (pobs * option pobs) :=
  match l with
  | [] => []
  | o :: r =>
      if first_sig s (code_of (o_code o)) && negb (channel s fcns o =? 255)
      then (o, find (fun o2 => second_sig s (code_of (o_code o2)) && (o_sat o2 =? o_sat o)) r) :: entries s fcns r
      else entries s fcns r
  end.
Definition usable_entries s fcns l := filter (fun en => usable_obs (fst en)) (entries s fcns l).
(** the epoch fits a message: PRNs of the constellation, no satellite with two first signals or two second signals, at most 31 satellites *)
Definition fits (s : sys) (fcns : list Z) (l : list pobs) : Prop :=
  Forall (fun o => first_sig s (code_of (o_code o)) = true -> 1 <= o_sat o <= match s with GPS => 32 | GLO => 24 end) l /\
  NoDup (map o_sat (filter (fun o => first_sig s (code_of (o_code o))) l)) /\
  NoDup (map o_sat (filter (fun o => second_sig s (code_of (o_code o))) l)) /\
  len (entries s fcns l) <= 31.

(** light-milliseconds in the pseudorange *)
Definition whole_ms (o : pobs) : Z := 20 * o_P o / 299792458.
(** transmission unit of the pseudorange: 1 light-millisecond (GPS) or 2 (GLONASS), in twentieths of a 2 cm unit *)
Definition unit20 (s : sys) : Z := match s with GPS => 299792458 | GLO => 599584916 end.
(** the second pseudorange is within 163 m of the first and not below its whole-millisecond part *)
Definition close_pair (s : sys) (o1 o2 : pobs) : Prop := Z.abs (o_P o2 - o_P o1) <= 8190 /\ 20 * o_P o1 / unit20 s * unit20 s <= 20 * o_P o2.
Open Scope R_scope.
Definition phase_of (s : sys) (second : bool) (fcns : list Z) (o1 o : pobs) : R := (IZR (o_Li o) + IZR (o_Lf o) / 256) * C_M_S / IZR (hz s second (channel s fcns o1)).
Definition phase_within (d : R) s second fcns o1 o : Prop := Rabs (phase_of s second fcns o1 o - range_m o1) <= d.
Close Scope R_scope.

(** lock-time class after the trip: DF402 classes below 1024 ms become 0, the others go down by one *)
Definition lock_after (l : Z) : Z := let c := l mod 16 in if c <? 6 then 0 else c - 1.
(** what arrives of observation [o] ([o1]: the first-signal observation of the satellite) *)
Definition leg_received (s : sys) (second : bool) (fcns : list Z) (o1 o o' : pobs) : Prop :=
  o_sat o' = o_sat o1 /\ code_of (o_code o') = civil s second /\
  (if match s with GPS => whole_ms o1 mod 10 =? 5 | GLO => false end then Z.abs (o_P o' - o_P o) <= 1 else o_P o' = o_P o) /\
  o_Lf o' = o_Lf o /\ (exists j, o_Li o' = o_Li o + 1500 * j /\ (phase_within 262 s second fcns o1 o -> j = 0)) /\
  o_cn0 o' = o_cn0 o /\ o_lock o' = lock_after (o_lock o) /\ o_flags o' = 7 /\ o_Di o' = 0 /\ o_Df o' = 0.
Definition leg_outcome (s : sys) (second : bool) (fcns : list Z) (o1 o : pobs) (r : option pobs) : Prop :=
  match r with Some o' => leg_received s second fcns o1 o o' | None => ~ phase_within 262 s second fcns o1 o end.
(** what arrives of a satellite, in order; [r2] only if there is a usable second observation *)
Definition entry_outcome (s : sys) (fcns : list Z) (en : pobs * option pobs) (r : option pobs * option pobs) : Prop :=
  leg_outcome s false fcns (fst en) (fst en) (fst r) /\
  match snd en with
  | Some o2 => if usable_obs o2 then leg_outcome s true fcns (fst en) o2 (snd r) else snd r = None
  | None => snd r = None
  end.
Definition opt_list {A} (o : option A) : list A := match o with Some a => [a] | None => [] end.
(** conditions on a satellite that is transmitted *)
Definition entry_ok (s : sys) (fcns : list Z) (en : pobs * option pobs) : Prop :=
  phase_within 1000000 s false fcns (fst en) (fst en) /\
  match snd en with Some o2 => close_pair s (fst en) o2 /\ (usable_obs o2 = true -> phase_within 1000000 s true fcns (fst en) o2) | None => True end.
(** the messages sent for an epoch: one for each constellation with a satellite that has an observation on its first signal; their headers *)
Definition systems_sent (fcns : list Z) (l : list pobs) : list sys := filter (fun s => 0 <? len (entries s fcns l)) [GPS; GLO].
(** time in the header, ms: GPS time of week, or GLONASS time of day (UTC + 3 h) *)
Definition leg_time (s : sys) (tow leap : Z) : Z :=
  match s with GPS => tow | GLO => (tow + 3 * 3600 * 1000 - 1000 * leap) mod (7 * 86400 * 1000) mod (86400 * 1000) end.
Definition leg_header (s : sys) (fcns : list Z) (leap : Z) (e : epoch) : hdr :=
  mkhdr (e_sender e mod 4096) (leg_time s (oh_tow (e_hdr e)) leap)
    (match s with GPS => if 0 <? len (entries GLO fcns (e_obs e)) then 1 else 0 | GLO => 0 end) 0 0.
End Spec.
