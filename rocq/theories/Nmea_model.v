(** Model of the NMEA sentence builders: c/gnss_converters/src/nmea.c:315-1440, and of the message state they read (sbp_nmea.c).
    Every builder yields the sentences as (buffer length, texts printed one after the other); NmeaText_model.v turns them into the string delivered.
    Parameters of the section are external: printf's "%.nf", the geoid model, sqrt/atan2 results, the numbering of signal codes. *)
From Coq Require Import String.
From Flocq Require Import IEEE754.Binary IEEE754.Bits.
From Verif Require Import Base Double_model Signals_model RtcmMsm_model RtcmLegacy_model Sbp2Msm_model NmeaText_model NmeaTime_model.
Open Scope Z_scope.

(** ** messages (libsbp structs; only the fields that are read) *)
Record sigid := mksig { sg_sat : Z; sg_code : Z }.
Record posm := mkposm { p_lat : dbl; p_lon : dbl; p_height : dbl; p_cov : Z (* covariances, opaque *); p_nsats : Z; p_flags : Z }.
Record velm := mkvelm { v_n : Z; v_e : Z; v_d : Z; v_flags : Z }.
Record dopsm := mkdopsm { d_pdop : Z; d_tdop : Z; d_hdop : Z; d_vdop : Z; d_flags : Z }.
Record solnm := mksolnm { sm_hdop : Z; sm_vdop : Z; sm_age : Z }.
Record azel := mkazel { ae_sid : sigid; ae_az : Z; ae_el : Z }.
Record meas := mkmeas { me_sid : sigid; me_cn0 : Z }.
Inductive body :=
| BNone | BTime (wn : Z) | BUtc (u : utc) | BPos (p : posm) | BVel (v : velm) | BDops (d : dopsm) | BAge (age : Z) | BHdg (heading flags : Z)
| BAzel (l : list azel) | BMeas (l : list meas) | BSoln (m : solnm) | BOrient (yaw flags : Z).
(** an entry of state->sbp_state[] *)
Record slot := mkslot { s_tow : Z; s_body : body }.
Definition dzero : dbl := dofZ 0.
Definition as_utc (s : slot) : utc := match s_body s with BUtc u => u | _ => mkutc 0 0 0 0 0 0 0 0 end.
Definition as_pos (s : slot) : posm := match s_body s with BPos p => p | _ => mkposm dzero dzero dzero 0 0 0 end.
Definition as_vel (s : slot) : velm := match s_body s with BVel v => v | _ => mkvelm 0 0 0 0 end.
Definition as_dops (s : slot) : dopsm := match s_body s with BDops d => d | _ => mkdopsm 0 0 0 0 0 end.
Definition as_age (s : slot) : Z := match s_body s with BAge a => a | _ => 0 end.
Definition as_hdg (s : slot) : Z * Z := match s_body s with BHdg h f => (h, f) | _ => (0, 0) end.
Definition as_soln (s : slot) : solnm := match s_body s with BSoln m => m | _ => mksolnm 0 0 0 end.
Definition as_orient (s : slot) : Z * Z := match s_body s with BOrient y f => (y, f) | _ => (0, 0) end.
Definition as_azel (s : slot) : list azel := match s_body s with BAzel l => l | _ => [] end.
Definition as_meas (s : slot) : list meas := match s_body s with BMeas l => l | _ => [] end.
Definition as_wn (s : slot) : Z := match s_body s with BTime w => w | _ => 0 end.

(** sbp2nmea_sbp_id_t, sbp2nmea_nmea_id_t, sbp2nmea_mode_t: sbp_nmea.h:29-74 *)
Inductive sid := sGPS_TIME | sUTC_TIME | sPOS | sVEL | sDOPS | sAGE | sHDG | sAZEL | sMEAS | sGROUP | sSOLN | sGPS_TIME_G | sUTC_TIME_G | sPOS_G | sVEL_G | sORIENT.
Definition sid_eq_dec (a b : sid) : {a = b} + {a <> b}. Proof. decide equality. Defined.
Inductive kind := GGA | RMC | VTG | HDT | GLL | ZDA | GSA | GST | GSV | PUBX | THS.
Definition kind_eq_dec (a b : kind) : {a = b} + {a <> b}. Proof. decide equality. Defined.
Definition all_kinds : list kind := [GGA; RMC; VTG; HDT; GLL; ZDA; GSA; GST; GSV; PUBX; THS].
Inductive mode := mBEST | mGNSS | mFUSED.
Definition mode_eqb (a b : mode) : bool := match a, b with mBEST, mBEST | mGNSS, mGNSS | mFUSED, mFUSED => true | _, _ => false end.

(** sbp2nmea_t: sbp_nmea.h:76-109.  nav_sids[256] is the list of its first num_obs entries. *)
Record nst := mknst {
  n_sids : list sigid; n_seq_count : Z; n_seq_total : Z; n_obs_wn : Z; n_obs_tow : Z;
  n_req : mode; n_act : mode; n_wagon : bool; n_base : Z;
  n_last : kind -> Z; n_rate : kind -> Z; n_slot : sid -> slot;
  n_freq : binary32; n_cog_thd : dbl; n_cog_upd : dbl; n_last_cog : dbl }.

(** translate_sbpid: sbp_nmea.c:109-126 *)
Definition id_map : list (sid * sid) := [(sGPS_TIME_G, sGPS_TIME); (sUTC_TIME_G, sUTC_TIME); (sPOS_G, sPOS); (sVEL_G, sVEL)].
Fixpoint translate (l : list (sid * sid)) (act : mode) (id : sid) : sid :=
  match l with
  | [] => id
  | (g, f) :: l => if sid_eq_dec id (if mode_eqb act mGNSS then f else g) then (if mode_eqb act mFUSED then f else g) else translate l act id
  end.
(** sbp2nmea_msg_get: sbp_nmea.c:385-389 *)
Definition msg_get (s : nst) (id : sid) (consider_mode : bool) : slot := n_slot s (if consider_mode then translate id_map (n_act s) id else id).

Definition POSITION_MODE_NONE : Z := 0.
Definition POSITION_MODE_FIXED : Z := 4.
Definition POSITION_MODE_DEAD_RECKONING : Z := 5.
Definition POSITION_MODE_SBAS : Z := 6.
Definition pmode (flags : Z) : Z := Z.land flags 7.
(** get_nmea_status, get_nmea_mode_indicator, get_nmea_quality_indicator: nmea.c:1375-1440 with libswiftnav's position modes (0 none, 1 SPP, 2 DGNSS,
    3 float, 4 fixed, 5 dead reckoning, 6 SBAS); None: assertion "Unsupported position type indicator" *)
Definition nmea_status (flags : Z) : option Z :=
  match pmode flags with 0 => Some 86 | 1 | 2 | 3 | 4 | 5 | 6 => Some 65 | _ => None end.
Definition nmea_mode_indicator (flags : Z) : option Z :=
  match pmode flags with 0 => Some 78 | 1 => Some 65 | 2 | 3 | 4 | 6 => Some 68 | 5 => Some 69 | _ => None end.
Definition quality (flags : Z) : option Z :=
  match pmode flags with 0 => Some 0 | 1 => Some 1 | 2 | 6 => Some 2 | 3 => Some 5 | 4 => Some 4 | 5 => Some 6 | _ => None end.
(** fix_type as computed in send_gpgga, send_gpgst, send_pubx, get_pubx_nav_stat *)
Definition fix_type (flags : Z) : option Z := if pmode flags =? POSITION_MODE_NONE then Some 0 else quality flags.

Definition dabs (x : dbl) : dbl := match x with B754_zero _ _ _ => B754_zero 53 1024 false | B754_infinity _ _ _ => B754_infinity 53 1024 false
  | B754_finite _ _ _ m e p => B754_finite 53 1024 false m e p | _ => x end.
Definition dleb (x y : dbl) : bool := match Bcompare 53 1024 x y with Some Lt | Some Eq => true | _ => false end.
(** round() as a double; None for NaN and infinity (whose value is not needed: the assertions that follow fail) *)
Definition droundd (x : dbl) : option dbl := match dround x with Some z => Some (dofZ z) | None => None end.
(** the split into degrees and minutes, e.g. nmea.c:350-361: degrees, minutes; None: assert(lat <= UINT16_MAX) fails *)
Definition d1e8 : dbl := dofZ 100000000.
Definition split_angle (x : dbl) : option (Z * dbl) :=
  match droundd (dmul x d1e8) with
  | None => None
  | Some r => let a := dabs (ddiv r d1e8) in
              if dleb a (dofZ 65535) then
                match dtrunc a with
                | Some deg => Some (deg, dmul (dsub a (dofZ deg)) (dofZ 60))
                | None => None
                end
              else None
  end.

Section Nmea.
Variable code_of : Z -> code.
(** "%0{w}.{p}f" *)
Variable ff : Z -> Z -> dbl -> list Z.
(** get_geoid_offset(lat * D2R, lon * D2R) *)
Variable geoid : dbl -> dbl -> dbl.
(** MS2KNOTS and MS2KMHR of the horizontal speed, R2D * atan2(east, north) *)
Variable knots kmh course : Z -> Z -> dbl.
(** the six numbers of GST, the accuracies of PUBX, computed from the covariances *)
Variable gst_vals : Z -> list dbl.
Variable pubx_acc : Z -> dbl * dbl.

Definition sent : Type := Z * list (list Z).
(** get_utc_time_string into a buffer of 23 characters *)
Definition utc_text (time date trunc : bool) (t : utc) : option (list Z) :=
  match utc_pieces time date trunc t with Some ps => Some (take 22 (List.concat ps)) | None => None end.
(** "%02u%010.7f,%c,%03u%010.7f,%c," *)
Definition latlon_text (p : posm) : option (list Z) :=
  match split_angle (p_lat p), split_angle (p_lon p) with
  | Some (lat_deg, lat_min), Some (lon_deg, lon_min) =>
      Some (fmt_u 2 lat_deg ++ ff 10 7 lat_min ++ str "," ++ [if dltb (p_lat p) dzero then 83 else 78] ++ str "," ++
            fmt_u 3 lon_deg ++ ff 10 7 lon_min ++ str "," ++ [if dltb (p_lon p) dzero then 87 else 69] ++ str ",")%list
  | _, _ => None
  end.
Definition d01 : dbl := ddiv (dofZ 1) (dofZ 10).
Definition d001 : dbl := ddiv (dofZ 1) (dofZ 100).
(** "%.1f" of round(10 * dop * 0.01) / 10 *)
Definition dop_text (dop : Z) : list Z :=
  match droundd (dmul (dofZ (10 * dop)) d001) with Some r => ff 0 1 (ddiv r (dofZ 10)) | None => [] end.
(** "%.1f" of round(dop * 0.1) / 10 *)
Definition dop_text_gsa (dop : Z) : list Z :=
  match droundd (dmul (dofZ dop) d01) with Some r => ff 0 1 (ddiv r (dofZ 10)) | None => [] end.
(** fix with differential corrections whose age is reported *)
Definition differential (fx flags : Z) : bool :=
  ((fx =? 2) && negb (pmode flags =? POSITION_MODE_SBAS)) || (fx =? 5) || (fx =? 4).

(** send_gpgga: nmea.c:315-417 *)
Definition send_gga (s : nst) : option (list sent) :=
  let p := as_pos (msg_get s sPOS true) in
  let u := as_utc (msg_get s sUTC_TIME true) in
  let hdop := if mode_eqb (n_act s) mGNSS then d_hdop (as_dops (msg_get s sDOPS false)) else sm_hdop (as_soln (msg_get s sSOLN false)) in
  let age := if mode_eqb (n_act s) mGNSS then as_age (msg_get s sAGE false) else sm_age (as_soln (msg_get s sSOLN false)) in
  match latlon_text p, fix_type (p_flags p), utc_text true false false u with
  | Some ll, Some fx, Some ut =>
      let g := geoid (p_lat p) (p_lon p) in
      Some [(120, [str "$GPGGA,"; ut;
        (if negb (fx =? 0) then ll else str ",,,,");
        (fmt_d 1 fx ++ str ",");
        (if fx =? 6 then fmt_d 2 (p_nsats p) ++ str ",," ++ ff 0 2 (dsub (p_height p) g) ++ str ",M," ++ ff 0 2 g ++ str ",M,"
         else if negb (fx =? 0) then fmt_d 2 (p_nsats p) ++ str "," ++ dop_text hdop ++ str "," ++ ff 0 2 (dsub (p_height p) g) ++ str ",M," ++ ff 0 2 g ++ str ",M,"
         else str ",,,M,,M,");
        (if differential fx (p_flags p) then ff 0 1 (dmul (dofZ age) d01) ++ str "," ++ fmt_d 4 (Z.land (n_base s) 1023) else str ",")])]%list
  | _, _, _ => None
  end.

(** calc_cog_sog: nmea.c:652-685: course, knots, km/h and the new last_non_stationary_cog; FULL_CIRCLE_DEG is 360, NMEA_COG_FRAC_DIVISOR 10 *)
Definition knots_factor : dbl := ddiv (dofZ 19438444924406) (dofZ 10000000000000).
Definition calc_cog (s : nst) (v : velm) : dbl * dbl :=
  let k := knots (v_n v) (v_e v) in
  if dleb (dmul knots_factor (n_cog_upd s)) k then
    let c := course (v_n v) (v_e v) in
    let c := if dltb c dzero then dadd c (dofZ 360) else c in
    let c := match droundd (dmul c (dofZ 10)) with Some r => ddiv r (dofZ 10) | None => c end in
    let c := if dltb (dabs (dsub (dofZ 360) c)) (ddiv (dofZ 1) (dofZ 10)) then dzero else c in
    (c, c)
  else (n_last_cog s, n_last_cog s).
Definition with_cog (s : nst) (c : dbl) : nst :=
  mknst (n_sids s) (n_seq_count s) (n_seq_total s) (n_obs_wn s) (n_obs_tow s) (n_req s) (n_act s) (n_wagon s) (n_base s) (n_last s) (n_rate s) (n_slot s)
    (n_freq s) (n_cog_thd s) (n_cog_upd s) c.
Definition vel_valid (v : velm) : bool := negb (Z.land (v_flags v) 7 =? 0).

(** send_gprmc: nmea.c:692-768 *)
Definition send_rmc (s : nst) : option (nst * list sent) :=
  let p := as_pos (msg_get s sPOS true) in
  let v := as_vel (msg_get s sVEL true) in
  let u := as_utc (msg_get s sUTC_TIME true) in
  let k := knots (v_n v) (v_e v) in
  let '(cog, last) := calc_cog s v in
  match latlon_text p, nmea_mode_indicator (p_flags p), nmea_status (p_flags p), utc_text true false false u, utc_text false true true u with
  | Some ll, Some md, Some st, Some ut, Some dt =>
      Some (with_cog s last, [(140, [str "$GPRMC,"; ut; ([st] ++ str ",");
        (if negb (pmode (p_flags p) =? 0) then ll else str ",,,,")] ++
        (if vel_valid v then [(ff 0 2 k ++ str ","); (if dleb (dmul knots_factor (n_cog_thd s)) k then ff 0 1 cog ++ str "," else str ",")] else [str ",,"]) ++
        [dt; (str ",," ++ [md])])])%list
  | _, _, _, _, _ => None
  end.
(** send_gpvtg: nmea.c:775-822 *)
Definition send_vtg (s : nst) : option (nst * list sent) :=
  let p := as_pos (msg_get s sPOS true) in
  let v := as_vel (msg_get s sVEL true) in
  let k := knots (v_n v) (v_e v) in
  let '(cog, last) := calc_cog s v in
  match nmea_mode_indicator (p_flags p) with
  | Some md =>
      Some (with_cog s last, [(120, [str "$GPVTG,";
        (if vel_valid v && dleb (dmul knots_factor (n_cog_thd s)) k then ff 0 1 cog ++ str ",T," else str ",T,");
        str ",M,";
        (if vel_valid v then ff 0 2 k ++ str ",N," ++ ff 0 2 (kmh (v_n v) (v_e v)) ++ str ",K," else str ",N,,K,");
        [md]])])%list
  | None => None
  end.
(** send_gphdt: nmea.c:829-845 (the quotient is computed in float and divided as double: (float)heading / 1000.0) *)
Definition send_hdt (s : nst) (heading_float : Z -> dbl) : option (list sent) :=
  let '(h, f) := as_hdg (msg_get s sHDG false) in
  Some [(40, [str "$GPHDT,"; (if pmode f =? POSITION_MODE_FIXED then ff 0 2 (ddiv (heading_float h) (dofZ 1000)) ++ str ",T" else str ",T")])]%list.
(** send_gpths: nmea.c:851-896.  [norm_up], [norm_down]: the two while loops. *)
Fixpoint yaw_up (fuel : nat) (y : Z) : Z := match fuel with O => y | S f => if y <? 0 then yaw_up f (y + 360000000) else y end.
Fixpoint yaw_down (fuel : nat) (y : Z) : Z := match fuel with O => y | S f => if 360000000 <? y then yaw_down f (y - 360000000) else y end.
Definition d359995 : dbl := ddiv (dofZ 359995) (dofZ 1000).
Definition yaw_deg (yaw : Z) : dbl :=
  let y := yaw_down 8 (yaw_up 8 yaw) in
  let d := ddiv (dofZ y) (dofZ 1000000) in
  if dleb d359995 d then dzero else d.
Definition send_ths (s : nst) : option (list sent) :=
  let '(yaw, f) := as_orient (msg_get s sORIENT false) in
  let p := as_pos (msg_get s sPOS true) in
  Some [(40, [str "$GPTHS,";
    (if (pmode (p_flags p) =? 0) || (Z.land f 7 =? 0) then str ",V"
     else ff 0 2 (yaw_deg yaw) ++ str "," ++ [if pmode (p_flags p) =? POSITION_MODE_DEAD_RECKONING then 69 else 65])])]%list.
(** send_gpgll: nmea.c:903-950 *)
Definition send_gll (s : nst) : option (list sent) :=
  let p := as_pos (msg_get s sPOS true) in
  let u := as_utc (msg_get s sUTC_TIME true) in
  match latlon_text p, nmea_status (p_flags p), nmea_mode_indicator (p_flags p), utc_text true false false u with
  | Some ll, Some st, Some md, Some ut =>
      Some [(120, [str "$GPGLL,"; (if negb (pmode (p_flags p) =? 0) then ll else str ",,,,"); ut; ([st] ++ str "," ++ [md])])]%list
  | _, _, _, _ => None
  end.
(** send_gpzda: nmea.c:957-973 *)
Definition send_zda (s : nst) : option (list sent) :=
  match utc_text true true false (as_utc (msg_get s sUTC_TIME true)) with
  | Some ut => Some [(40, [str "$GPZDA,"; ut; str ","])]
  | None => None
  end.

(** ** satellite lists *)
(** talker_id_t; sid_to_talker_id: nmea.c:480-498; None: code_to_constellation's assertion fails *)
Definition talker (g : sigid) : option Z :=
  match cons_of (code_of (sg_code g)) with
  | None => None
  | Some cGAL => Some 2 | Some cBDS => Some 3 | Some cGLO => Some 1 | Some cGPS | Some cQZS | Some cSBAS => Some 0
  | Some cINVALID => Some (-1)
  end.
(** nmea_get_id: nmea.c:430-460 (u16) *)
Definition nmea_id (g : sigid) : Z :=
  (match cons_of (code_of (sg_code g)) with
   | Some cBDS => 400 + sg_sat g | Some cGAL => 300 + sg_sat g | Some cGPS => sg_sat g | Some cGLO => 64 + sg_sat g
   | Some cSBAS => -87 + sg_sat g | Some cQZS => 192 + sg_sat g | _ => -1 end) mod 65536.
Definition talker_str (t : Z) : list Z := match t with 0 => str "GP" | 1 => str "GL" | 2 => str "GA" | 3 => str "GB" | _ => [] end.
Definition GSA_MAX_SV : Z := 12.
(** the list prns[id] of one talker after the loop over the observations: nmea.c:571-605 *)
Fixpoint gsa_list (t : Z) (l : list sigid) (acc : list Z) : option (list Z) :=
  match l with
  | [] => Some acc
  | g :: l => match talker g with
              | None => None
              | Some t' => gsa_list t l (if negb (t' =? t) then acc else if GSA_MAX_SV <=? len acc then acc
                                         else if existsb (Z.eqb (nmea_id g)) acc then acc else acc ++ [nmea_id g])
              end
  end.
(** qsort with gsa_cmp *)
Fixpoint insert (x : Z) (l : list Z) : list Z := match l with [] => [x] | y :: r => if x <=? y then x :: l else y :: insert x r end.
Definition sort (l : list Z) : list Z := fold_right insert [] l.
(** send_gsa_print: nmea.c:508-545 *)
Definition gsa_print (prns : list Z) (d : dopsm) (tk : list Z) : sent :=
  let fix_ := negb (pmode (d_flags d) =? 0) in
  let l := sort prns in
  (120, ([str "$" ++ tk ++ str "GSA,A," ++ [if fix_ then 51 else 49] ++ str ","] ++
         List.map (fun i => match nth_error l i with Some id => fmt_d 2 id ++ str "," | None => str "," end) (List.seq 0 12) ++
         [if fix_ then dop_text_gsa (d_pdop d) ++ str "," ++ dop_text_gsa (d_hdop d) ++ str "," ++ dop_text_gsa (d_vdop d) else str ",,"]))%list.
(** send_gsa: nmea.c:564-636 *)
Definition send_gsa (s : nst) : option (list sent) :=
  let d := as_dops (msg_get s sDOPS false) in
  match gsa_list 0 (n_sids s) [], gsa_list 1 (n_sids s) [], gsa_list 2 (n_sids s) [], gsa_list 3 (n_sids s) [] with
  | Some l0, Some l1, Some l2, Some l3 =>
      let ls := [(0, l0); (1, l1); (2, l2); (3, l3)] in
      let used := filter (fun '(_, l) => negb (len l =? 0)) ls in
      if len used =? 0 then Some [gsa_print l0 d (str "GP")]
      else Some (List.map (fun '(t, l) => gsa_print l d (if 1 <? len used then str "GN" else talker_str t)) used)
  | _, _, _, _ => None
  end.
(** send_gpgst: nmea.c:979-1080 *)
Definition talkers_used (l : list sigid) : option (list Z) :=
  if forallb (fun g => match talker g with Some _ => true | None => false end) l
  then Some (filter (fun t => existsb (fun g => match talker g with Some t' => t' =? t | None => false end) l) [0; 1; 2; 3]) else None.
Definition send_gst (s : nst) : option (list sent) :=
  let p := as_pos (msg_get s sPOS true) in
  match fix_type (p_flags p), utc_text true false false (as_utc (msg_get s sUTC_TIME true)), talkers_used (n_sids s) with
  | Some fx, Some ut, Some ts =>
      if (len ts =? 0) || (fx =? 0) then Some [(120, [str "$GPGST," ++ ut ++ str ",,,,,,"])]%list
      else Some [(120, [(if 1 <? len ts then str "$GNGST," ++ ut else str "$" ++ talker_str (znth 0 0 ts) ++ str "GST," ++ ut); str ",";
        match gst_vals (p_cov p) with
        | [a; b; c; d; e; f] => ff 0 6 a ++ str "," ++ ff 0 6 b ++ str "," ++ ff 0 1 c ++ str "," ++ ff 0 6 d ++ str "," ++ ff 0 6 e ++ str "," ++ ff 0 6 f
        | _ => [] end])]%list
  | _, _, _ => None
  end.

(** nmea_gsv_element_t *)
Record gsv_el := mkgsv { g_sid : sigid; g_el : Z; g_az : Z; g_snr : option Z }.
(** (u8)round(cn0 / 4.0): exact in double *)
Definition snr_of (cn0 : Z) : Z := (cn0 + 2) / 4.
Fixpoint first_snr (g : sigid) (ms : list meas) : option (option Z) :=
  match ms with
  | [] => Some None
  | m :: ms => match (if sg_sat (me_sid m) =? sg_sat g
                      then match cons_of (code_of (sg_code (me_sid m))), cons_of (code_of (sg_code g)) with
                           | Some a, Some b => Some (cons_eqb a b) | _, _ => None end
                      else Some false) with
               | None => None
               | Some true => Some (Some (snr_of (me_cn0 m)))
               | Some false => first_snr g ms
               end
  end.
(** the entries of one talker: nmea.c:1154-1184 (has_azel is always true) *)
Fixpoint gsv_list (t : Z) (l : list azel) (ms : list meas) : option (list gsv_el) :=
  match l with
  | [] => Some []
  | a :: l => match talker (ae_sid a) with
              | None => None
              | Some t' => if t' =? -1 then gsv_list t l ms
                           else match first_snr (ae_sid a) ms, gsv_list t l ms with
                                | Some snr, Some r => Some (if t' =? t then mkgsv (ae_sid a) (ae_el a) (2 * ae_az a) snr :: r else r)
                                | _, _ => None
                                end
              end
  end.
Definition gsv_entry (e : gsv_el) : list Z :=
  (str "," ++ fmt_u 2 (nmea_id (g_sid e)) ++ str "," ++ fmt_d 2 (g_el e) ++ str "," ++ fmt_u 3 (g_az e) ++
   match g_snr e with Some q => str "," ++ fmt_u 2 q | None => str "," end)%list.
(** nmea_gsv_print: nmea.c:1085-1122: message i of n_messages with the next at most 4 entries *)
Fixpoint gsv_msgs (t n_messages n_used : Z) (k : nat) (i : Z) (l : list gsv_el) : list sent :=
  match k with
  | O => []
  | S k => (120, ([str "$" ++ talker_str t ++ str "GSV," ++ fmt_u 0 n_messages ++ str "," ++ fmt_u 0 (i + 1) ++ str "," ++ fmt_u 2 n_used] ++
                  List.map gsv_entry (take 4 l))) :: gsv_msgs t n_messages n_used k (i + 1) (drop 4 l)
  end%list.
Definition gsv_print (t : Z) (l : list gsv_el) : list sent :=
  let n_messages := (len l + 3) / 4 in gsv_msgs t n_messages (len l) (Z.to_nat n_messages) 0 l.
(** send_gsv: nmea.c:1139-1202.  A VLA of length 0 (no az/el entries) is taken to be harmless. *)
Definition send_gsv (s : nst) : option (list sent) :=
  let az := as_azel (msg_get s sAZEL false) in
  let ms := as_meas (msg_get s sMEAS false) in
  match gsv_list 0 az ms, gsv_list 1 az ms, gsv_list 2 az ms, gsv_list 3 az ms with
  | Some l0, Some l1, Some l2, Some l3 =>
      let out := (gsv_print 0 l0 ++ gsv_print 1 l1 ++ gsv_print 2 l2 ++ gsv_print 3 l3)%list in
      Some (if len out =? 0 then [(120, [str "$GPGSV,1,1,0"])] else out)
  | _, _, _, _ => None
  end.

(** get_pubx_nav_stat and send_pubx: nmea.c:1204-1352 *)
Definition nav_stat (fx flags : Z) : list Z :=
  if fx =? 0 then str "NF" else if fx =? 6 then str "DR" else if differential fx flags then str "D3" else str "G3".
Definition send_pubx (s : nst) (mm_down : Z -> dbl) : option (nst * list sent) :=
  let p := as_pos (msg_get s sPOS true) in
  let v := as_vel (msg_get s sVEL true) in
  let gnss := mode_eqb (n_act s) mGNSS in
  let d := as_dops (msg_get s sDOPS false) in
  let sm := as_soln (msg_get s sSOLN false) in
  let k := knots (v_n v) (v_e v) in
  let '(cog, last) := calc_cog s v in
  match latlon_text p, fix_type (p_flags p), utc_text true false false (as_utc (msg_get s sUTC_TIME true)) with
  | Some ll, Some fx, Some ut =>
      Some (with_cog s last, [(120, [str "$PUBX,00,"; ut;
        (if negb (fx =? 0) then ll ++ ff 0 2 (p_height p) ++ str "," else str ",,,,,");
        (nav_stat fx (p_flags p) ++ str ",");
        (if negb (fx =? 0) then ff 0 1 (fst (pubx_acc (p_cov p))) ++ str "," ++ ff 0 1 (snd (pubx_acc (p_cov p))) ++ str "," else str ",,")] ++
        (if vel_valid v then [(ff 0 2 (kmh (v_n v) (v_e v)) ++ str ","); (if dltb (dmul knots_factor (n_cog_thd s)) k then ff 0 1 cog ++ str "," else str ",");
                              (ff 0 2 (mm_down (v_d v)) ++ str ",")] else [str ",,,"]) ++
        [(if differential fx (p_flags p) then ff 0 1 (dmul (dofZ (if gnss then as_age (msg_get s sAGE false) else sm_age sm)) d01) ++ str "," else str ",");
         (if (fx =? 6) || (fx =? 0) then str ",,,"
          else if gnss then dop_text (d_hdop d) ++ str "," ++ dop_text (d_vdop d) ++ str "," ++ dop_text (d_tdop d) ++ str ","
          else dop_text (sm_hdop sm) ++ str "," ++ dop_text (sm_vdop sm) ++ str ",,");
         (fmt_d 0 (p_nsats p) ++ str ",0,"); fmt_d 0 (if fx =? 6 then 1 else 0)])])%list
  | _, _, _ => None
  end.

(** nmea_meta[].send *)
Variable heading_float mm_down : Z -> dbl.
Definition pure (s : nst) (o : option (list sent)) : option (nst * list sent) := match o with Some l => Some (s, l) | None => None end.
Definition send (k : kind) (s : nst) : option (nst * list sent) :=
  match k with
  | GGA => pure s (send_gga s) | RMC => send_rmc s | VTG => send_vtg s | HDT => pure s (send_hdt s heading_float) | GLL => pure s (send_gll s)
  | ZDA => pure s (send_zda s) | GSA => pure s (send_gsa s) | GST => pure s (send_gst s) | GSV => pure s (send_gsv s)
  | PUBX => send_pubx s mm_down | THS => pure s (send_ths s)
  end.
End Nmea.
