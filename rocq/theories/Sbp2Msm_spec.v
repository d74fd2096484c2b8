(** Specification vocabulary for C29, C30: epochs that MSM can carry, and where an observation is found in the messages. *)
From Verif Require Import Base RtcmMsm_model RtcmMsm_spec Signals_model Signals_spec Sbp2Rtcm_model Sbp2Msm_model.

Section Spec.
Variable code_of : Z -> code.
Definition sig_of (o : pobs) : code := code_of (o_code o).
(** the observations of constellation [c] *)
Definition obs_of (c : cons) (os : list pobs) : list pobs :=
  filter (fun o => match cons_of (sig_of o) with Some c' => cons_eqb c' c | None => false end) os.
(** [o] is an observation of constellation [c], mask positions [i] (satellite) and [j] (signal) *)
Definition placed (c : cons) (o : pobs) (i j : Z) : Prop := cons_of (sig_of o) = Some c /\ sat_pos c (o_sat o) i /\ sig_pos c (sig_of o) j.
Definition distinct_sats (os : list pobs) : Z := len (nodup Z.eq_dec (map o_sat os)).
Definition distinct_sigs (os : list pobs) : Z := len (nodup code_eq_dec (map sig_of os)).
(** supported satellites and signals, no SBAS, each satellite/signal pair once, and per constellation at most 32 satellites and at most 64
    cells in the satellite x signal grid *)
Definition epoch_ok (os : list pobs) : Prop :=
  Forall (fun o => exists c i j, c <> cSBAS /\ placed c o i j) os /\
  NoDup (map (fun o => (o_sat o, sig_of o)) os) /\
  forall c, distinct_sats (obs_of c os) <= 32 /\ distinct_sats (obs_of c os) * distinct_sigs (obs_of c os) <= 64.

(** observation [o] is what message [m] carries for satellite position [i], signal position [j]: both bits are set, their cell is set, and the
    signal entry of that cell (counting set cells) is [o]; the satellite entry was last written by an observation of the same satellite *)
Definition carries (m : omsg) (o : pobs) (i j : Z) : Prop :=
  let h := om_hdr m in
  znth false i (sat_mask h) = true /\ znth false j (sig_mask h) = true /\ znth false (cell_of h i j) (cell_mask h) = true /\
  znth None (set_count (take (cell_of h i j) (cell_mask h))) (om_sigs m) = Some o /\
  exists o' r, znth [] (set_count (take i (sat_mask h))) (om_sats m) = o' :: r /\ o_sat o' = o_sat o.
(** the header fields other than masks and multiple-message bit *)
Definition header_of (cfg : ocfg) (e : epoch) (c : cons) (h : mhdr) : Prop :=
  mh_num h = to_msm_msg_num c (c_type cfg) /\ mh_stn h = e_sender e mod 4096 /\
  mh_iods h = 0 /\ mh_reserved h = 0 /\ mh_steering h = 1 /\ mh_ext_clock h = 0 /\ mh_div h = 0 /\ mh_smooth h = 0 /\
  match c with
  | cGLO => Time_model.compute_glo_tow_ms (oh_tow (e_hdr e)) (c_leap cfg) = Some (mh_tow h)
  | cBDS => mh_tow h = Time_model.gps_tow_to_beidou_tow (oh_tow (e_hdr e))
  | _ => mh_tow h = oh_tow (e_hdr e)
  end.
End Spec.

(** message [m] is the complete MSM message of constellation [c] for the epoch *)
Definition msm_of (code_of : Z -> code) (cfg : ocfg) (e : epoch) (c : cons) (m : omsg) : Prop :=
  header_of cfg e c (om_hdr m) /\
  (forall o i j, In o (e_obs e) -> placed code_of c o i j -> carries m o i j) /\
  set_count (cell_mask (om_hdr m)) = len (obs_of code_of c (e_obs e)).
(** the constellations present in the epoch, in RTCM order *)
Definition present (code_of : Z -> code) (os : list pobs) : list cons :=
  filter (fun c => negb (len (obs_of code_of c os) =? 0)) [cGPS; cSBAS; cGLO; cBDS; cQZS; cGAL].
