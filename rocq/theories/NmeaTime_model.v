(** Model of the UTC time fields of the NMEA sentences: c/gnss_converters/src/nmea.c:195-298. *)
From Coq Require Import String.
From Verif Require Import Base Double_model NmeaText_model.

(** sbp_msg_utc_time_t *)
Record utc := mkutc { u_flags : Z; u_year : Z; u_month : Z; u_day : Z; u_hours : Z; u_minutes : Z; u_seconds : Z; u_ns : Z }.
(** days_in_month (libswiftnav, external): the Gregorian calendar; 0 for an invalid month *)
Definition leap (y : Z) : bool := (y mod 4 =? 0) && (negb (y mod 100 =? 0) || (y mod 400 =? 0)).
Definition days_in_month (y m : Z) : Z :=
  match m with
  | 1 | 3 | 5 | 7 | 8 | 10 | 12 => 31
  | 4 | 6 | 9 | 11 => 30
  | 2 => if leap y then 29 else 28
  | _ => 0
  end.
(** the literal 1e-9, correctly rounded *)
Definition d1em9 : dbl := ddiv (dofZ 1) (dofZ 1000000000).
(** (u16)round(NMEA_UTC_S_FRAC_DIVISOR * ns * 1e-9), NMEA_UTC_S_FRAC_DIVISOR = pow(10, 2) = 100.0 *)
Definition round_cs (ns : Z) : option Z :=
  match dround (dmul (dmul (dofZ 100) (dofZ ns)) d1em9) with
  | Some z => if (0 <=? z) && (z <? 65536) then Some z else None
  | None => None
  end.
(** round_utc_time: nmea.c:195-229.  Fields are u8 except year (u16); None: the conversion to u16 is out of range (never for a u32 ns). *)
Definition round_utc_time (t : utc) : option utc :=
  match round_cs (u_ns t) with
  | None => None
  | Some ns =>
      if negb (100 <=? ns) then Some (mkutc (u_flags t) (u_year t) (u_month t) (u_day t) (u_hours t) (u_minutes t) (u_seconds t) ns)
      else
      let seconds := (u_seconds t + 1) mod 256 in
      if negb (60 <=? seconds) then Some (mkutc (u_flags t) (u_year t) (u_month t) (u_day t) (u_hours t) (u_minutes t) seconds 0)
      else
      let minutes := (u_minutes t + 1) mod 256 in
      if negb (60 <=? minutes) then Some (mkutc (u_flags t) (u_year t) (u_month t) (u_day t) (u_hours t) minutes 0 0)
      else
      let hours := (u_hours t + 1) mod 256 in
      if negb (24 <=? hours) then Some (mkutc (u_flags t) (u_year t) (u_month t) (u_day t) hours 0 0 0)
      else
      let day := (u_day t + 1) mod 256 in
      if negb (days_in_month (u_year t) (u_month t) <? day) then Some (mkutc (u_flags t) (u_year t) (u_month t) day 0 0 0 0)
      else
      let month := (u_month t + 1) mod 256 in
      if negb (12 <? month) then Some (mkutc (u_flags t) (u_year t) month 1 0 0 0 0)
      else Some (mkutc (u_flags t) ((u_year t + 1) mod 65536) 1 1 0 0 0 0)
  end.
(** get_utc_time_string: nmea.c:242-298: the successive prints *)
Definition utc_pieces (time date trunc : bool) (t : utc) : option (list (list Z)) :=
  if u_flags t =? 0 then Some ((if time then [str ","] else []) ++ (if date then if trunc then [str ","] else [str ",,,"] else []))
  else match round_utc_time t with
  | None => None
  | Some r =>
      Some ((if time then [fmt_u 2 (u_hours r) ++ fmt_u 2 (u_minutes r) ++ fmt_u 2 (u_seconds r) ++ str "." ++ fmt_u 2 (u_ns r) ++ str ","] else []) ++
            (if date then if trunc then [fmt_u 2 (u_day r) ++ fmt_u 2 (u_month r) ++ fmt_u 2 (u_year r mod 100) ++ str ","]
                          else [fmt_u 2 (u_day r) ++ str "," ++ fmt_u 2 (u_month r) ++ str "," ++ fmt_u 0 (u_year r) ++ str ","] else []))
  end%list.
(** the caller's char utc[NMEA_TS_MAX_LEN], 23 characters, read back with "%s" *)
Definition NMEA_TS_MAX_LEN : Z := 23.
Definition get_utc_time_string (init : list Z) (time date trunc : bool) (t : utc) : res (list Z) :=
  match utc_pieces time date trunc t with
  | None => Ub
  | Some ps => bind (printfs NMEA_TS_MAX_LEN (init, 0) ps) (fun '(mem, _) => Ok (cstring mem))
  end.
