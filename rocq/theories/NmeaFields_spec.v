(** Specification vocabulary for C56-C58: the content of the fields of NMEA sentences. *)
From Coq Require Import String Reals.
From Verif Require Import Base Double_model Double_proofs Signals_model RtcmMsm_model RtcmLegacy_model Sbp2Msm_model NmeaText_model NmeaTime_model NmeaTime_spec Nmea_model Nmea_spec NmeaState_model NmeaState_spec NmeaLists_spec.
Open Scope Z_scope.
Open Scope list_scope.

(** the fields of a text, separated by commas *)
Fixpoint fields (l : list Z) : list (list Z) :=
  match l with
  | [] => [[]]
  | c :: r => if c =? 44 then [] :: fields r else match fields r with f :: fs => (c :: f) :: fs | [] => [[c]] end
  end.

(** the type of fix: the three low bits of the flags *)
Definition fix_of (flags : Z) : Z := flags mod 8.   (* 0 none, 1 single point, 2 differential, 3 float, 4 fixed, 5 dead reckoning, 6 SBAS *)
(** NMEA: quality 0 invalid, 1 GPS, 2 differential, 4 RTK, 5 float RTK, 6 estimated *)
Definition quality_of (fix_ : Z) : Z := match fix_ with 1 => 1 | 2 => 2 | 3 => 5 | 4 => 4 | 5 => 6 | 6 => 2 | _ => 0 end.
(** status A valid, V invalid; mode A autonomous, D differential, E estimated, N not valid *)
Definition status_of (fix_ : Z) : Z := if fix_ =? 0 then 86 else 65.
Definition mode_of (fix_ : Z) : Z := match fix_ with 0 => 78 | 1 => 65 | 5 => 69 | _ => 68 end.
(** corrections with a known age are in use *)
Definition corrected (fix_ : Z) : bool := (fix_ =? 2) || (fix_ =? 3) || (fix_ =? 4).

(** two decimal digits *)
Definition dd (n : Z) : list Z := [48 + n / 10; 48 + n mod 10].
(** [r] is the UTC time [u] rounded to hundredths of a second *)
Definition rounded (u r : utc) : Prop :=
  0 <= u_year r <= 65535 /\ 1 <= u_month r <= 12 /\ 1 <= u_day r <= days_in_month (u_year r) (u_month r) /\
  0 <= u_hours r < 24 /\ 0 <= u_minutes r < 60 /\ 0 <= u_seconds r < 60 /\ 0 <= u_ns r < 100 /\
  Z.abs (10000000 * (100 * second_number r + u_ns r) - (1000000000 * second_number u + u_ns u)) <= 5000000.
(** a UTC message without valid time leaves the fields empty *)
Definition time_of (u r : utc) : list Z := if u_flags u =? 0 then [] else dd (u_hours r) ++ dd (u_minutes r) ++ dd (u_seconds r) ++ [46] ++ dd (u_ns r).
Definition date_of (u r : utc) : list Z := if u_flags u =? 0 then [] else dd (u_day r) ++ dd (u_month r) ++ dd (u_year r mod 100).
Definition utc_rel (u r : utc) : Prop := u_flags u = 0 \/ rounded u r.

(** numbers that are printed: hundredths of a DOP in tenths; age in deciseconds *)
Definition dop_value (dop : Z) (x : dbl) : Prop := dfin x = true /\ (Rabs (dR x - IZR dop / 100) <= 51 / 1000)%R /\ (exists z, Rabs (dR x - IZR z / 10) <= 1 / 1000000)%R.
Definition tenths (n : Z) (x : dbl) : Prop := dfin x = true /\ (Rabs (dR x - IZR n / 10) <= 1 / 1000000)%R.

(** messages within the ranges of their fields *)
Definition ok_angle (x : dbl) : Prop := dfin x = true /\ (Rabs (dR x) <= 360)%R.
Definition u16 (x : Z) : Prop := 0 <= x < 65536.
Definition msg_ok (m : slot) : Prop :=
  match s_body m with
  | BUtc u => utc_ok u
  | BPos p => ok_angle (p_lat p) /\ ok_angle (p_lon p)
  | BDops d => u16 (d_hdop d) /\ u16 (d_vdop d) /\ u16 (d_tdop d) /\ u16 (d_pdop d)
  | BSoln m => u16 (sm_hdop m) /\ u16 (sm_vdop m) /\ u16 (sm_age m)
  | BAge a => u16 a
  | BOrient yaw _ => - 2 ^ 31 <= yaw < 2 ^ 31
  | _ => True
  end.
(** whole degrees and minutes that add up to the angle, to within half a hundred-millionth of a degree and never 60 minutes *)
Definition deg_min (x : dbl) (d : Z) (m : dbl) : Prop :=
  dfin m = true /\ (0 <= dR m <= 60 - 5 / 10000000)%R /\ 0 <= d <= 360 /\ (Rabs (IZR d + dR m / 60 - Rabs (dR x)) <= 51 / 10000000000)%R.

(** the settings after a history: base station, course thresholds *)
Fixpoint last_base (cs : list call) (d : Z) : Z := match cs with [] => d | CBase b :: cs => last_base cs b | _ :: cs => last_base cs d end.
Fixpoint last_cog (cs : list call) (d : dbl * dbl) : dbl * dbl := match cs with [] => d | CCog a b :: cs => last_cog cs (a, b) | _ :: cs => last_cog cs d end.

Section Content.
Variable code_of : Z -> code.
Variable ff : Z -> Z -> dbl -> list Z.
Variable geoid : dbl -> dbl -> dbl.
Variable knots kmh course : Z -> Z -> dbl.
Variable gst_vals : Z -> list dbl.
Variable pubx_acc : Z -> dbl * dbl.
Variable heading_float mm_down : Z -> dbl.

(** latitude, N/S, longitude, E/W; all empty without fix *)
Definition pos_fields (p : posm) (fs : list (list Z)) : Prop :=
  if fix_of (p_flags p) =? 0 then fs = [[]; []; []; []]
  else exists d1 m1 t1 d2 m2 t2, deg_min (p_lat p) d1 m1 /\ number 2 d1 t1 /\ deg_min (p_lon p) d2 m2 /\ number 3 d2 t2 /\
    fs = [t1 ++ ff 10 7 m1; [if Rlt_dec (dR (p_lat p)) 0 then 83 else 78]; t2 ++ ff 10 7 m2; [if Rlt_dec (dR (p_lon p)) 0 then 87 else 69]].
Definition opt (b : bool) (f : list Z) : list Z := if b then f else [].

(** the messages of the solution being reported *)
Definition pos_id (s : nst) : sid := match n_act s with mGNSS => sPOS_G | _ => sPOS end.
Definition vel_id (s : nst) : sid := match n_act s with mGNSS => sVEL_G | _ => sVEL end.
Definition utc_id (s : nst) : sid := match n_act s with mGNSS => sUTC_TIME_G | _ => sUTC_TIME end.
Definition s_pos (s : nst) : posm := as_pos (n_slot s (pos_id s)).
Definition s_vel (s : nst) : velm := as_vel (n_slot s (vel_id s)).
Definition s_utc (s : nst) : utc := as_utc (n_slot s (utc_id s)).
Definition s_hdop (s : nst) : Z := match n_act s with mGNSS => d_hdop (as_dops (n_slot s sDOPS)) | _ => sm_hdop (as_soln (n_slot s sSOLN)) end.
Definition s_vdop (s : nst) : Z := match n_act s with mGNSS => d_vdop (as_dops (n_slot s sDOPS)) | _ => sm_vdop (as_soln (n_slot s sSOLN)) end.
Definition s_age (s : nst) : Z := match n_act s with mGNSS => as_age (n_slot s sAGE) | _ => sm_age (as_soln (n_slot s sSOLN)) end.
Definition has_vel (s : nst) : bool := negb (v_flags (s_vel s) mod 8 =? 0).
(** faster than a threshold of [thd] m/s, compared in knots *)
Definition faster (s : nst) (thd : dbl) : bool := dleb (dmul knots_factor thd) (knots (v_n (s_vel s)) (v_e (s_vel s))).
Definition faster_strictly (s : nst) (thd : dbl) : bool := dltb (dmul knots_factor thd) (knots (v_n (s_vel s)) (v_e (s_vel s))).
(** the course that is printed: always one of 0.0, 0.1, ..., 359.9; the present one, if fast enough, to within half a tenth of a degree on the circle *)
Definition course_value (s : nst) (c : dbl) : Prop :=
  dfin c = true /\ (0 <= dR c < 35995 / 100)%R /\
  if faster s (n_cog_upd s) then exists k, (Rabs (dR c - (dR (course (v_n (s_vel s)) (v_e (s_vel s))) + 360 * IZR k)) <= 51 / 1000)%R else c = n_last_cog s.
(** the heading that is printed: 0 <= h < 359.995, the yaw in degrees, to within 5 thousandths of a degree on the circle *)
Definition heading_value (yaw : Z) (h : dbl) : Prop :=
  dfin h = true /\ (0 <= dR h < 359995 / 1000)%R /\ exists k, (Rabs (dR h - (IZR yaw / 1000000 + 360 * IZR k)) <= 5001 / 1000000)%R.

Definition content (k : kind) (s : nst) (fs : list (list Z)) : Prop :=
  let p := s_pos s in let fx := fix_of (p_flags p) in let q := quality_of fx in
  match k with
  | GGA => exists r pf n d a b, utc_rel (s_utc s) r /\ pos_fields p pf /\ number 2 (p_nsats p) n /\ dop_value (s_hdop s) d /\ tenths (s_age s) a /\ number 4 (n_base s mod 1024) b /\
      let g := geoid (p_lat p) (p_lon p) in
      fs = [str "GPGGA"; time_of (s_utc s) r] ++ pf ++
           [[48 + q]; opt (negb (q =? 0)) n; opt (negb (q =? 0) && negb (q =? 6)) (ff 0 1 d); opt (negb (q =? 0)) (ff 0 2 (dsub (p_height p) g)); [77]; opt (negb (q =? 0)) (ff 0 2 g); [77];
            opt (corrected fx) (ff 0 1 a); opt (corrected fx) b]
  | RMC => exists r pf c, utc_rel (s_utc s) r /\ pos_fields p pf /\ course_value s c /\
      fs = [str "GPRMC"; time_of (s_utc s) r; [status_of fx]] ++ pf ++
           [opt (has_vel s) (ff 0 2 (knots (v_n (s_vel s)) (v_e (s_vel s)))); opt (has_vel s && faster s (n_cog_thd s)) (ff 0 1 c); date_of (s_utc s) r; []; []; [mode_of fx]]
  | VTG => exists c, course_value s c /\
      fs = [str "GPVTG"; opt (has_vel s && faster s (n_cog_thd s)) (ff 0 1 c); [84]; []; [77]; opt (has_vel s) (ff 0 2 (knots (v_n (s_vel s)) (v_e (s_vel s)))); [78];
            opt (has_vel s) (ff 0 2 (kmh (v_n (s_vel s)) (v_e (s_vel s)))); [75]; [mode_of fx]]
  | HDT => let '(h, f) := as_hdg (n_slot s sHDG) in fs = [str "GPHDT"; opt (fix_of f =? 4) (ff 0 2 (ddiv (heading_float h) (dofZ 1000))); [84]]
  | GLL => exists r pf, utc_rel (s_utc s) r /\ pos_fields p pf /\ fs = [str "GPGLL"] ++ pf ++ [time_of (s_utc s) r; [status_of fx]; [mode_of fx]]
  | ZDA => exists r y, utc_rel (s_utc s) r /\ number 0 (u_year r) y /\
      fs = [str "GPZDA"; time_of (s_utc s) r] ++ (if u_flags (s_utc s) =? 0 then [[]; []; []] else [dd (u_day r); dd (u_month r); y]) ++ [[]; []]
  | GST => exists r name, utc_rel (s_utc s) r /\ (name = str "GP" \/ name = str "GL" \/ name = str "GA" \/ name = str "GB" \/ name = str "GN") /\
      ((fx = 0 \/ forall g t id, In g (n_sids s) -> ~ sat_of code_of t id g) /\ fs = [str "GPGST"; time_of (s_utc s) r; []; []; []; []; []; []; []] \/
       fx <> 0 /\ fs = [name ++ str "GST"; time_of (s_utc s) r; []] ++ List.map (fun '(i, x) => ff 0 (if i =? 2 then 1 else 6) x) (combine [0; 1; 2; 3; 4; 5] (gst_vals (p_cov p))))
  | PUBX => exists r pf c a h v t n, utc_rel (s_utc s) r /\ pos_fields p pf /\ course_value s c /\ tenths (s_age s) a /\ dop_value (s_hdop s) h /\ dop_value (s_vdop s) v /\
      dop_value (d_tdop (as_dops (n_slot s sDOPS))) t /\ number 0 (p_nsats p) n /\
      let has := negb (q =? 0) in let dops := negb (q =? 0) && negb (q =? 6) in
      fs = [str "PUBX"; str "00"; time_of (s_utc s) r] ++ pf ++
           [opt has (ff 0 2 (p_height p)); (match fx with 0 => str "NF" | 5 => str "DR" | 1 | 6 => str "G3" | _ => str "D3" end);
            opt has (ff 0 1 (fst (pubx_acc (p_cov p)))); opt has (ff 0 1 (snd (pubx_acc (p_cov p)))); opt (has_vel s) (ff 0 2 (kmh (v_n (s_vel s)) (v_e (s_vel s))));
            opt (has_vel s && faster_strictly s (n_cog_thd s)) (ff 0 1 c); opt (has_vel s) (ff 0 2 (mm_down (v_d (s_vel s)))); opt (corrected fx) (ff 0 1 a);
            opt dops (ff 0 1 h); opt dops (ff 0 1 v); opt (dops && mode_eqb (n_act s) mGNSS) (ff 0 1 t); n; [48]; [if q =? 6 then 49 else 48]]
  | THS => let '(yaw, f) := as_orient (n_slot s sORIENT) in exists h, heading_value yaw h /\
      fs = str "GPTHS" :: (if (fx =? 0) || (f mod 8 =? 0) then [[]; [86]] else [ff 0 2 h; [if fx =? 5 then 69 else 65]])
  | GSA | GSV => True   (* C47 *)
  end.
End Content.
