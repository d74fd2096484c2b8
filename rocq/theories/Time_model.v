(** Model of the time-of-week resolution in the RTCM converters.
    Times are integer milliseconds: the code's doubles hold whole milliseconds (tow_ms / 1000.0) or, for reference times,
    whole seconds, and every result is read back through rint(tow * 1000), which recovers the integer
    (C21_glo_time_in_doubles in Properties_legval.v proves it for compute_glo_tow_ms; Properties_timed.v proves the resolution itself
    in doubles, from any double reference).
    gps_time_t, gps_time_valid, gpsdifftime and normalize_gps_time_safe are libswiftnav (external); their documented
    meaning is written out here and is part of the trusted base.
    Assertion failures are [None]. *)
From Verif Require Import Base.

Definition WEEK_MS : Z := 604800000.
Definition DAY_MS : Z := 86400000.
Definition HOUR_MS : Z := 3600000.
Definition WN_UNKNOWN : Z := -1.
Definition INT16_MAX : Z := 32767.

Record gtime := mkt { wn : Z; tow : Z }.
Definition T_UNKNOWN : gtime := mkt WN_UNKNOWN 0.
Definition gps_time_valid (t : gtime) : bool := (0 <=? wn t) && (0 <=? tow t) && (tow t <? WEEK_MS).
Definition gpsdifftime (a b : gtime) : Z :=
  let dt := tow a - tow b in
  if (wn a =? WN_UNKNOWN) || (wn b =? WN_UNKNOWN)
  then if WEEK_MS / 2 <? dt then dt - WEEK_MS else if dt <? - (WEEK_MS / 2) then dt + WEEK_MS else dt
  else dt + (wn a - wn b) * WEEK_MS.
Definition normalize_gps_time_safe (t : gtime) : option gtime :=
  let w := wn t + tow t / WEEK_MS in
  if (wn t <? 0) || (w <? 0) || (INT16_MAX <? w) then None else Some (mkt w (tow t mod WEEK_MS)).

(** compute_gps_message_time: rtcm3_sbp.c:1185-1204 *)
Definition compute_gps_message_time (tow_ms : Z) (rover : gtime) : option gtime :=
  if WEEK_MS <=? tow_ms then Some T_UNKNOWN
  else if negb (gps_time_valid rover) then None
  else
    let t := mkt (wn rover) tow_ms in
    let timediff := gpsdifftime t rover in
    let t := if (timediff <? - (WEEK_MS / 2)) && negb (wn rover =? INT16_MAX) then mkt (wn rover + 1) tow_ms
             else if (WEEK_MS / 2 <? timediff) && negb (wn rover =? 0) then mkt (wn rover - 1) tow_ms
             else t in
    if gps_time_valid t then Some t else None.

(** beidou_tow_to_gps_tow: rtcm3_sbp.c:1206-1212 (u32 arithmetic; BDS_SECOND_TO_GPS_SECOND = 14) *)
Definition beidou_tow_to_gps_tow (tow_ms : Z) : Z :=
  let t := (tow_ms + 14000) mod 2 ^ 32 in
  if WEEK_MS <=? t then t - WEEK_MS else t.
(** gps_tow_to_beidou_tow: sbp_rtcm3.c:397-403 *)
Definition gps_tow_to_beidou_tow (tow_ms : Z) : Z :=
  ((if tow_ms <? 14000 then tow_ms + WEEK_MS else tow_ms) - 14000) mod 2 ^ 32.

(** while (tow_ms < 0) { tow_ms += week; wn -= 1; }  rtcm3_sbp.c:1250-1253; at most one round for the values that occur *)
Definition borrow_weeks (w t : Z) : gtime := if t <? 0 then mkt (w + t / WEEK_MS) (t mod WEEK_MS) else mkt w t.
(** compute_glo_time: rtcm3_sbp.c:1226-1268; [leap]: state->leap_seconds when leap_second_known.
    Result: return value and *obs_time (None: *obs_time unchanged). *)
Definition compute_glo_time (tod_ms : Z) (rover : gtime) (leap : option Z) : bool * option gtime :=
  match leap with
  | None => (false, Some T_UNKNOWN)
  | Some leap =>
    if DAY_MS + 1000 <=? tod_ms then (false, Some T_UNKNOWN)
    else if negb (gps_time_valid rover) then (false, None)
    else
      let glo_dow := Z.quot (tow rover) DAY_MS in
      let glo_tod_ms := tod_ms - 3 * HOUR_MS in
      let t := borrow_weeks (wn rover) (glo_dow * DAY_MS + glo_tod_ms + leap * 1000) in
      match normalize_gps_time_safe t with
      | None => (false, Some t)
      | Some t =>
        let timediff := gpsdifftime t rover in
        if DAY_MS / 2 <? Z.abs timediff
        then let t := mkt (wn t) (tow t + (if timediff <? 0 then DAY_MS else - DAY_MS)) in
             match normalize_gps_time_safe t with
             | None => (false, Some t)
             | Some t => (true, Some t)
             end
        else (true, Some t)
      end
  end.

(** compute_glo_tow_ms: sbp_rtcm3.c:479-501; None: assertion failure.  (uint32_t)-1 when leap seconds are unknown. *)
Definition compute_glo_tow_ms (gps_tow_ms : Z) (leap : option Z) : option Z :=
  match leap with
  | None => Some (2 ^ 32 - 1)
  | Some leap =>
    let t := gps_tow_ms + 3 * HOUR_MS - leap * 1000 in
    let t := if t <? 0 then t + WEEK_MS else t in
    let t := if WEEK_MS <=? t then t - WEEK_MS else t in
    if (0 <=? t) && (t <? WEEK_MS + 1000) then Some (t mod WEEK_MS) else None
  end.
(** compute_glo_tod_ms: sbp_rtcm3.c:622-628 *)
Definition compute_glo_tod_ms (gps_tow_ms : Z) (leap : option Z) : option Z :=
  match leap with
  | None => Some (2 ^ 32 - 1)
  | Some _ => match compute_glo_tow_ms gps_tow_ms leap with Some t => Some (t mod DAY_MS) | None => None end
  end.

(** compute_glo_time_of_day: sbp_rtcm3_ephemeris.c:85-102, whole seconds; returns t_b (u8), the 15-minute slot *)
Definition glo_t_b (gps_tow_s leap : Z) : Z :=
  let tod := Z.rem (gps_tow_s - leap) 86400 in
  let tod := tod + 3 * 3600 in
  let tod := if 86400 <? tod then tod - 86400 else tod in
  Z.quot tod 900 mod 256.

(** get_bds_wn_tow: sbp_rtcm3_ephemeris.c:155-171, whole seconds, toe/toc multiples of the resolution (8 s): the rounded quotient is exact.
    wn is uint16_t arithmetic modulo 8192. *)
Definition get_bds_wn_tow (w s res : Z) : Z * Z :=
  if 14 <? s then ((w - 1356) mod 8192, (s - 14) / res) else ((w - 1356 - 1) mod 8192, (s - 14 + 604800) / res).
(** get_time_from_bds_wn_tow: rtcm3_sbp_ephemeris.c:334-346 before gps_adjust_week_cycle *)
Definition time_from_bds (bwn btow res : Z) : Z * Z :=
  let w := bwn + 1356 in let s := btow * res + 14 in
  (w + s / 604800, s mod 604800).
