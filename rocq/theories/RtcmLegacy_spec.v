(** What a faithful transmission of legacy observations means. *)
From Verif Require Import Base RtcmLegacy_model RtcmStation_spec.

(** units: pseudorange 0.0005 m, carrier phase 1/599584916000 cycle ([f] of them are 0.0005 m on a carrier of [f] Hz) *)

(** the decoded lock time never exceeds the true one, is exact below 24 s, at most 31 s short below 937 s, and 937 above *)
Definition lock_close (t t' : Z) : Prop :=
  t' <= t /\ (t < 24 -> t' = t) /\ (t < 937 -> t - t' < 32) /\ (937 <= t -> t' = 937).
(** a carrier phase recovered to half of 0.0005 m *)
Definition phase_close (f cp cp' : Z) : Prop := 2 * Z.abs (cp' - cp) <= f.
(** a pseudorange recovered to 1 cm *)
Definition range_close (p p' : Z) : Prop := Z.abs (p' - p) <= 20.

(** L1 as received: [base] is the whole number of light-milliseconds the non-extended messages drop *)
Definition l1_received (f base : Z) (ext : bool) (fd fd' : freq) : Prop :=
  v_pr fd' = true /\ v_cp fd' = true /\ v_lock fd' = true /\
  range_close (pr fd - base) (pr fd') /\ phase_close f (cp fd - f * base) (cp fd') /\
  (v_lock fd = true -> lock_close (lock fd) (lock fd')) /\
  (ext = true -> cnr fd' = cnr fd /\ v_cnr fd' = negb (cnr fd =? 0)).
(** L2 as received: validity flags preserved; valid quantities recovered *)
Definition l2_received (f base : Z) (ext : bool) (fd fd' : freq) : Prop :=
  v_pr fd' = v_pr fd /\ v_cp fd' = v_cp fd /\
  (v_pr fd = true -> Z.abs (pr fd' - (pr fd - base)) <= 20) /\
  (v_cp fd = true -> phase_close f (cp fd - f * base) (cp fd')) /\
  (v_lock fd = true -> lock_close (lock fd) (lock fd')) /\
  (ext = true -> cnr fd' = cnr fd /\ v_cnr fd' = negb (cnr fd =? 0)).
(** whole light-milliseconds (GPS) or double light-milliseconds (GLONASS) in the L1 pseudorange *)
Definition dropped (k : kind) (s : sat) : Z :=
  if k_ext k then 0 else pr (l1 s) / prunit (k_sys k) * prunit (k_sys k).
Definition sat_received (k : kind) (s s' : sat) : Prop :=
  sv s' = sv s /\ (k_sys k = GLO -> fcn s' = fcn s) /\
  l1_received (freq_l1 (k_sys k) (fcn s)) (dropped k s) (k_ext k) (l1 s) (l1 s') /\
  (k_two k = true -> l2_received (freq_l2 (k_sys k) (fcn s)) (dropped k s) (k_ext k) (l2 s) (l2 s')).

(** which inputs are meant: physical values a receiver produces.  Code and carrier agree to 262 m (no rollover); L1 and L2
    code agree to 160 m. *)
Definition carrier_ok (f : Z) (base : Z) (fd : freq) : Prop :=
  v_cp fd = true -> Z.abs (cp fd - f * base) <= f * 524200.
Definition freq_ok (fd : freq) : Prop := (v_lock fd = true -> 0 <= lock fd) /\ 0 <= cnr fd < 256.
Definition amb_max (s : sys) : Z := match s with GPS => 256 | GLO => 128 end.
Definition sat_ok (k : kind) (s : sat) : Prop :=
  let P := prunit (k_sys k) in let p := pr (l1 s) in
  ubits 6 (sv s) /\ (k_sys k = GLO -> 0 <= fcn s <= 20) /\
  0 <= p < amb_max (k_sys k) * P /\ freq_ok (l1 s) /\ carrier_ok (freq_l1 (k_sys k) (fcn s)) p (l1 s) /\
  (k_two k = true -> freq_ok (l2 s) /\ carrier_ok (freq_l2 (k_sys k) (fcn s)) p (l2 s) /\
     p / P * P <= pr (l2 s) < 2 ^ 36 /\ (v_pr (l2 s) = true -> Z.abs (pr (l2 s) - p) <= 320000)).
Definition hdr_ok (k : kind) (h : hdr) : Prop :=
  ubits 12 (h_stn h) /\ 0 <= h_tow h <= max_tow (k_sys k) /\ ubits 1 (h_sync h) /\ ubits 1 (h_div h) /\ ubits 3 (h_smooth h).
(** a satellite has a usable L1 measurement (and for 1003 also L2) *)
Definition usable (k : kind) (s : sat) : bool :=
  v_pr (l1 s) && v_cp (l1 s) && (if k_two k && negb (k_ext k) then v_pr (l2 s) && v_cp (l2 s) else true).
Definition legacy_kind (k : kind) : Prop := In k [K1001; K1002; K1003; K1004; K1010; K1012].
