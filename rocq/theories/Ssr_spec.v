(** Specification of the SSR messages: their bit layout, when an orbit and a clock message belong together, and the instants
    epoch times denote.  Independent of the decoder and of the cache. *)
From Verif Require Import Base Bitstring Bits_model RtcmStation_spec RtcmMsm_model Time_model Ssr_model.

(** ** layout (RTCM 10403.3 and the draft ssr_1_gal_qzss_sbas_bds) *)
Inductive skind := SKOrbit | SKClock | SKCode | SKBoth | SKPhase.
(** message number of a kind for a constellation *)
Definition ssr_number (c : cons) (k : skind) : option Z :=
  let base := match c with cGPS => Some 1057 | cGLO => Some 1063 | cGAL => Some 1240 | cQZS => Some 1246 | cBDS => Some 1258 | _ => None end in
  let off o := match base with Some b => Some (b + o) | None => None end in
  match k with
  | SKOrbit => off 0 | SKClock => off 1 | SKCode => off 2 | SKBoth => off 3
  | SKPhase => match c with cGPS => Some 1265 | cGLO => Some 1266 | cGAL => Some 1267 | cQZS => Some 1268 | cSBAS => Some 1269 | cBDS => Some 1270 | cINVALID => None end
  end.
Definition w_epoch (c : cons) : Z := match c with cGLO => 17 | _ => 20 end.
Definition w_sat (c : cons) : Z := match c with cGLO => 5 | cQZS => 4 | _ => 6 end.
Definition f_header (k : skind) (h : hdr) : list field :=
  [(12, h_num h); (w_epoch (h_cons h), h_epoch h); (4, h_interval h); (1, h_multi h)]
  ++ (match k with SKOrbit | SKBoth => [(1, h_datum h)] | _ => [] end)
  ++ [(4, h_iod h); (16, h_provider h); (4, h_solution h)]
  ++ (match k with SKPhase => [(1, h_disp h); (1, h_mw h)] | _ => [] end)
  ++ [(6, h_nsats h)].
Definition wf_header (k : skind) (h : hdr) (nsats : Z) : Prop :=
  ssr_number (h_cons h) k = Some (h_num h) /\ ubits (w_epoch (h_cons h)) (h_epoch h) /\ ubits 4 (h_interval h) /\ ubits 1 (h_multi h) /\
  ubits 4 (h_iod h) /\ ubits 16 (h_provider h) /\ ubits 4 (h_solution h) /\ h_nsats h = nsats /\ ubits 6 nsats /\
  (match k with SKOrbit | SKBoth => ubits 1 (h_datum h) | _ => h_datum h = 0 end) /\
  (match k with SKPhase => ubits 1 (h_disp h) /\ ubits 1 (h_mw h) | _ => h_disp h = 0 /\ h_mw h = 0 end).
(** BeiDou carries a 10-bit toe first ([extra]), then the 8-bit IOD; no other constellation with orbit messages has a second field *)
Definition f_orbit (c : cons) (extra : Z) (o : orbit) : list field :=
  (match c with cBDS => [(10, extra); (8, o_iode o)] | cGAL => [(10, o_iode o)] | _ => [(8, o_iode o)] end)
  ++ [(22, o_radial o); (20, o_along o); (20, o_cross o); (21, o_dradial o); (19, o_dalong o); (19, o_dcross o)].
Definition wf_orbit (c : cons) (o : orbit) : Prop :=
  ubits (w_sat c) (o_sat o) /\ ubits (match c with cGAL => 10 | _ => 8 end) (o_iode o) /\
  sbits 22 (o_radial o) /\ sbits 20 (o_along o) /\ sbits 20 (o_cross o) /\ sbits 21 (o_dradial o) /\ sbits 19 (o_dalong o) /\ sbits 19 (o_dcross o).
Definition full_clock (sat c0 c1 c2 : Z) : clock := mkclock sat (Some c0) (Some c1) (Some c2).
Record wclock := mkwclock { wk_sat : Z; wk_c0 : Z; wk_c1 : Z; wk_c2 : Z }.
Definition f_clock (k : wclock) : list field := [(22, wk_c0 k); (21, wk_c1 k); (27, wk_c2 k)].
Definition wf_clock (c : cons) (k : wclock) : Prop :=
  ubits (w_sat c) (wk_sat k) /\ sbits 22 (wk_c0 k) /\ sbits 21 (wk_c1 k) /\ sbits 27 (wk_c2 k).
Definition clock_of (k : wclock) : clock := full_clock (wk_sat k) (wk_c0 k) (wk_c1 k) (wk_c2 k).

Definition f_orbit_msg (h : hdr) (l : list (Z * orbit)) : list field :=
  f_header SKOrbit h ++ flat_map (fun xo => (w_sat (h_cons h), o_sat (snd xo)) :: f_orbit (h_cons h) (fst xo) (snd xo)) l.
Definition f_clock_msg (h : hdr) (l : list wclock) : list field :=
  f_header SKClock h ++ flat_map (fun k => (w_sat (h_cons h), wk_sat k) :: f_clock k) l.
Definition f_both_msg (h : hdr) (l : list (Z * orbit * wclock)) : list field :=
  f_header SKBoth h ++ flat_map (fun x => (w_sat (h_cons h), o_sat (snd (fst x))) :: f_orbit (h_cons h) (fst (fst x)) (snd (fst x)) ++ f_clock (snd x)) l.
Definition f_code_msg (h : hdr) (l : list code_sat) : list field :=
  f_header SKCode h ++ flat_map (fun s => (w_sat (h_cons h), cb_sat s) :: (5, len (cb_biases s)) :: flat_map (fun b => [(5, fst b); (14, snd b)]) (cb_biases s)) l.
Definition wf_code_sat (c : cons) (s : code_sat) : Prop :=
  ubits (w_sat c) (cb_sat s) /\ len (cb_biases s) <= 31 /\ Forall (fun b => ubits 5 (fst b) /\ sbits 14 (snd b)) (cb_biases s).
Definition f_phase_msg (h : hdr) (l : list phase_sat) : list field :=
  f_header SKPhase h ++ flat_map (fun s => (w_sat (h_cons h), pb_sat s) :: (5, len (pb_biases s)) :: (9, pb_yaw s) :: (8, pb_rate s) ::
    flat_map (fun b => [(5, p_sig b); (1, p_int b); (2, p_wl b); (4, p_disc b); (20, p_bias b)]) (pb_biases s)) l.
Definition wf_phase_sat (c : cons) (s : phase_sat) : Prop :=
  ubits (w_sat c) (pb_sat s) /\ ubits 9 (pb_yaw s) /\ sbits 8 (pb_rate s) /\ len (pb_biases s) <= 31 /\
  Forall (fun b => ubits 5 (p_sig b) /\ ubits 1 (p_int b) /\ ubits 2 (p_wl b) /\ ubits 4 (p_disc b) /\ sbits 20 (p_bias b)) (pb_biases s).
(** payload [p] carries exactly these fields, followed by anything *)
Definition carries (p : list Z) (fs : list field) : Prop := exists pad, bits_of_bytes p = fields_bits fs ++ pad.

(** ** pairing *)
(** a separate orbit or clock message *)
Definition separate (m : ssr_msg) : option hdr := match m with MOrbit h _ | MClock h _ => Some h | _ => None end.
Definition fits (a b : ssr_msg) : bool :=
  match a, b with
  | MOrbit h _, MClock h' _ | MClock h _, MOrbit h' _ => (h_epoch h =? h_epoch h') && (h_iod h =? h_iod h')
  | _, _ => false
  end.
(** [paired l]: in a list of separate messages of one constellation, newest first, the newest completes a pair with its
    predecessor: they fit and the predecessor did not itself complete a pair *)
Fixpoint paired (l : list ssr_msg) : bool :=
  match l with
  | m :: r => match r with p :: _ => fits m p && negb (paired r) | [] => false end
  | [] => false
  end.
Definition separate_of (c : cons) (m : ssr_msg) : bool := match separate m with Some h => cons_eqb (h_cons h) c | None => false end.
(** the separate messages of constellation [c] among the payloads, newest first *)
Fixpoint received (c : cons) (ps : list (list Z)) : list ssr_msg :=
  match ps with
  | [] => []
  | p :: r => received c r ++ match classify p with Some m => if separate_of c m then [m] else [] | None => [] end
  end.

(** ** time: the GPS instant (in s) lies [offset] after an instant at which the constellation's clock reads [epoch], modulo [period] *)
Definition period (c : cons) : Z := match c with cGLO => 86400 | _ => 604800 end.
Definition offset (c : cons) (leap : Z) : Z := match c with cGLO => leap - 10800 | cBDS => 14 | _ => 0 end.
Definition denotes (c : cons) (leap epoch w s : Z) : Prop := (w * 604800 + s - offset c leap - epoch) mod period c = 0.
(** a receiver whose time is known, with the leap seconds, away from the first and last representable weeks *)
Definition good_env (e : env) (leap : Z) : Prop :=
  0 <= tow (e_rover e) < 604800000 /\ 2 < wn (e_rover e) < 32765 /\ e_leap e = Some leap /\ 0 <= leap <= 3600.
(** the signal codes the SBP specification assigns: the L1-band code that names each constellation in a signal identifier
    (SBP GnssSignal: 0 GPS L1CA, 2 SBAS L1CA, 3 GLO L1CA, 12 BDS2 B1, 14 GAL E1B, 31 QZS L1CA) *)
Definition sbp_code_names (code : Z) (c : cons) : Prop :=
  In (code, c) [(0, cGPS); (2, cSBAS); (3, cGLO); (12, cBDS); (14, cGAL); (31, cQZS)].
