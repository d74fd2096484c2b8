(** The time resolution of the RTCM receiver in the double arithmetic it really uses: c/gnss_converters/src/rtcm3_sbp.c:655-661, 695-699, 712-716, 787-794, 1185-1268.
    Time_model.v has the same functions on integer milliseconds.
    gps_time_valid, gpsdifftime and normalize_gps_time_safe are libswiftnav (external): written out here after their documentation, part of the trusted base. *)
From Verif Require Import Base Time_model Double_model MsmVal_model.
From Verif Require Import Nmea_model.

(** gps_time_t: week number and seconds as a double *)
Record dtime := mkdt { dw : Z; ds : dbl }.
Definition valid_d (t : dtime) : bool := (0 <=? dw t) && dleb d0 (ds t) && dltb (ds t) (dofZ 604800).
Definition difftime_d (a b : dtime) : dbl :=
  let dt := dsub (ds a) (ds b) in
  if (dw a =? WN_UNKNOWN) || (dw b =? WN_UNKNOWN)
  then if dltb (dofZ 302400) dt then dsub dt (dofZ 604800) else if dltb dt (dofZ (-302400)) then dadd dt (dofZ 604800) else dt
  else dadd dt (dofZ ((dw a - dw b) * 604800)).
(** for seconds within one week outside the week, as here *)
Definition normalize_d (t : dtime) : option dtime :=
  let t' := if dltb (ds t) d0 then mkdt (dw t - 1) (dadd (ds t) (dofZ 604800))
            else if dleb (dofZ 604800) (ds t) then mkdt (dw t + 1) (dsub (ds t) (dofZ 604800)) else t in
  if (dw t <? 0) || (dw t' <? 0) || (INT16_MAX <? dw t') then None else Some t'.

(** compute_gps_message_time: rtcm3_sbp.c:1185-1204; outer None: an assertion fails *)
Definition gps_message_time_d (tow_ms : Z) (rover : dtime) : option dtime :=
  if WEEK_MS <=? tow_ms then Some (mkdt WN_UNKNOWN d0)
  else if negb (valid_d rover) then None
  else
    let tow := ddiv (dofZ tow_ms) (dofZ 1000) in
    let diff := difftime_d (mkdt (dw rover) tow) rover in
    let t := if dltb diff (dofZ (-302400)) && negb (dw rover =? INT16_MAX) then mkdt (dw rover + 1) tow
             else if dltb (dofZ 302400) diff && negb (dw rover =? 0) then mkdt (dw rover - 1) tow
             else mkdt (dw rover) tow in
    if valid_d t then Some t else None.
(** compute_glo_time: rtcm3_sbp.c:1226-1268, with the leap second known; None: it returns false.  tow_ms < 0 happens at most once round the loop *)
Definition glo_time_d (tod_ms : Z) (rover : dtime) (leap : Z) : option dtime :=
  if DAY_MS + 1000 <=? tod_ms then None
  else if negb (valid_d rover) then None
  else
    match conv 0 255 (dtrunc (ddiv (ds rover) (dofZ 86400))) with
    | None => None
    | Some dow =>
        let n := dow * 86400 * 1000 + (tod_ms - 3 * 3600 * 1000) + leap * 1000 in
        let '(w, n) := if n <? 0 then (dw rover - 1, n + WEEK_MS) else (dw rover, n) in
        match normalize_d (mkdt w (ddiv (dofZ n) (dofZ 1000))) with
        | None => None
        | Some t =>
            let diff := difftime_d t rover in
            if dltb (dofZ 43200) (dabs diff)
            then normalize_d (mkdt (dw t) (dadd (ds t) (dofZ ((if dltb diff d0 then 1 else -1) * 86400))))
            else Some t
        end
    end.
(** the SBP time stamp of an epoch: (u32)rint(obs_time->tow * SECS_MS), rtcm3_sbp.c:791-793, 1519-1521 *)
Definition sbp_tow (t : dtime) : option Z := conv 0 (2 ^ 32 - 1) (drint (dmul (ds t) (dofZ 1000))).
(** is_msm_active: rtcm3_sbp.c:656-661; MSM_TIMEOUT_SEC 5 *)
Definition msm_active_d (now last : dtime) : bool := valid_d last && dltb (difftime_d now last) (dofZ 5).
(** gpsdifftime(obs_time, last) > 0.5 / SECS_MS: rtcm3_sbp.c:695-696, 713-714 *)
Definition later_d (t last : dtime) : bool := dltb (ddiv (ddiv (dofZ 5) (dofZ 10)) (dofZ 1000)) (difftime_d t last).
