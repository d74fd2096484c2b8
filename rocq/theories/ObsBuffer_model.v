(** Model of the observation buffer, the message dispatch and the gating of the RTCM-to-SBP converter
    (c/gnss_converters/src/rtcm3_sbp.c).
    Parameters (all statements hold for every choice of them):
    [obs]: an SBP packed observation; the per-signal numeric conversion is not part of this model;
    [legacy_dec], [msm_dec]: decoding of an observation payload into header fields and the list of candidate observations in loop order;
    [utc_offset]: get_gps_utc_offset; [aux], [other]: everything the remaining message types keep and emit.
    Times are milliseconds (Time_model.v).  None results are assertion failures. *)
From Verif Require Import Base Bits_model Time_model.

Definition MAX_OBS_PER_EPOCH : Z := 210.  (* rtcm3_sbp.h: SBP_MAX_OBS_SEQ * SBP_MSG_OBS_OBS_MAX *)
Definition OBS_PER_MSG : Z := 14.
Definition MSM_TIMEOUT_MS : Z := 5000.
Definition GLO_SANITY_MS : Z := 30000.
Definition BASE_FUTURE_MS : Z := 10000.
(** rtcm_stn_to_sbp_sender_id: rtcm3_sbp_internal.h:206-208 *)
Definition sender_of (stn : Z) : Z := Z.lor stn 0xF080.

Section Obs.
Context {obs : Type} {other_out : Type} {aux : Type}.

Record legacy_msg := mklegacy { l_tow_ms : Z; l_stn : Z; l_sync : Z; l_cands : list (option obs) }.
(** [m_cands]: candidates that passed the sid / constellation / support / valid_pr tests, in cell order *)
Record msm_msg := mkmsm { m_tow_ms : Z; m_stn : Z; m_cands : list obs }.
Inductive cons := GPS | GLO | BDS | OTHER.

Inductive out :=
| OObs (sender wn tow n_obs : Z) (os : list obs)   (* SbpMsgObs *)
| OFull                                            (* log: Too many RTCM observations *)
| ONotEmpty                                        (* log: RTCM MSM sequence not properly finished *)
| OBaseInvalid (timediff_ms : Z)                   (* cb_base_obs_invalid *)
| OOther (o : other_out).

Record rstate := mkr {
  r_time : gtime; r_leap : option Z; r_sender : Z;
  r_last_gps : gtime; r_last_glo : gtime; r_last_msm : gtime;
  r_obs_wn : Z; r_obs_tow : Z; r_buf : list obs; r_aux : aux }.
Definition r_init (a : aux) : rstate := mkr T_UNKNOWN None 0 T_UNKNOWN T_UNKNOWN T_UNKNOWN 0 0 [] a.
Definition set_time s t := mkr t (r_leap s) (r_sender s) (r_last_gps s) (r_last_glo s) (r_last_msm s) (r_obs_wn s) (r_obs_tow s) (r_buf s) (r_aux s).
Definition set_leap s l := mkr (r_time s) l (r_sender s) (r_last_gps s) (r_last_glo s) (r_last_msm s) (r_obs_wn s) (r_obs_tow s) (r_buf s) (r_aux s).
Definition set_buf s w t b := mkr (r_time s) (r_leap s) (r_sender s) (r_last_gps s) (r_last_glo s) (r_last_msm s) w t b (r_aux s).
Definition set_sender s x := mkr (r_time s) (r_leap s) x (r_last_gps s) (r_last_glo s) (r_last_msm s) (r_obs_wn s) (r_obs_tow s) (r_buf s) (r_aux s).
Definition set_last s a b c := mkr (r_time s) (r_leap s) (r_sender s) a b c (r_obs_wn s) (r_obs_tow s) (r_buf s) (r_aux s).
Definition set_aux s a := mkr (r_time s) (r_leap s) (r_sender s) (r_last_gps s) (r_last_glo s) (r_last_msm s) (r_obs_wn s) (r_obs_tow s) (r_buf s) a.

(** send_observations: rtcm3_sbp.c:912-957.  total_messages and the indices are u8: with at most 210 observations none of them wraps. *)
Definition total_messages (n : Z) : Z := (1 + (if 0 <? n then (n - 1) / OBS_PER_MSG else 0)) mod 256.
Fixpoint send_loop (s : rstate) (total : Z) (k : nat) (msg_num : Z) (rest : list obs) : list out :=
  match k with
  | O => []
  | S k => let now := take (Z.min OBS_PER_MSG (len rest)) rest in
           OObs (r_sender s) (r_obs_wn s) (r_obs_tow s) ((Z.shiftl total 4 + msg_num) mod 256) now
           :: send_loop s total k (msg_num + 1) (drop (Z.min OBS_PER_MSG (len rest)) rest)
  end.
Definition send_observations (s : rstate) : option (rstate * list out) :=
  let n := len (r_buf s) in
  let total := total_messages n in
  if (n <=? MAX_OBS_PER_EPOCH) && (total <=? 15)
  then Some (set_buf s 0 0 [], send_loop s total (Z.to_nat total) 0 (r_buf s))
  else None.

(** the nested loops of add_obs_to_buffer: rtcm3_sbp.c:810-903; true: stopped because the buffer is full *)
Fixpoint fill_legacy (buf : list obs) (cands : list (option obs)) : list obs * bool :=
  match cands with
  | [] => (buf, false)
  | c :: cs => if MAX_OBS_PER_EPOCH <=? len buf then (buf, true)
               else fill_legacy (match c with Some o => buf ++ [o] | None => buf end) cs
  end.
(** the nested loops of add_msm_obs_to_buffer: rtcm3_sbp.c:1550-1656 *)
Fixpoint fill_msm (buf : list obs) (cands : list obs) : list obs * bool :=
  match cands with
  | [] => (buf, false)
  | o :: cs => if MAX_OBS_PER_EPOCH <=? len buf then (buf, true) else fill_msm (buf ++ [o]) cs
  end.

(** add_obs_to_buffer: rtcm3_sbp.c:787-910 *)
Definition add_obs_to_buffer (m : legacy_msg) (t : gtime) (s : rstate) : option (rstate * list out) :=
  let flush := negb (len (r_buf s) =? 0) && (negb (r_obs_tow s =? tow t) || negb (r_sender s =? sender_of (l_stn m))) in
  match (if flush then send_observations s else Some (s, [])) with
  | None => None
  | Some (s, o1) =>
    let s := set_sender (set_buf s (wn t) (tow t) (r_buf s)) (sender_of (l_stn m)) in
    let '(b, full) := fill_legacy (r_buf s) (l_cands m) in
    let s := set_buf s (wn t) (tow t) b in
    if full then Some (s, o1 ++ [OFull])
    else if l_sync m =? 0
    then match send_observations s with None => None | Some (s, o2) => Some (s, o1 ++ o2) end
    else Some (s, o1)
  end.

(** is_msm_active: rtcm3_sbp.c:656-661 *)
Definition is_msm_active (t : gtime) (s : rstate) : bool :=
  gps_time_valid (r_last_msm s) && (gpsdifftime t (r_last_msm s) <? MSM_TIMEOUT_MS).
(** validate_base_obs_sanity: rtcm3_sbp.c:1270-1284, callback present *)
Definition base_sanity (t rover : gtime) : list out :=
  if gps_time_valid t && gps_time_valid rover && (BASE_FUTURE_MS <=? gpsdifftime rover t) then [OBaseInvalid (gpsdifftime rover t)] else [].
(** the GLONASS plausibility window: rtcm3_sbp.c:677-690, 1472-1486 *)
Definition glo_window (t : gtime) (s : rstate) (leap : Z) : bool :=
  (Z.abs (gpsdifftime t (r_time s) - leap * 1000) <=? GLO_SANITY_MS) ||
  (gps_time_valid (r_last_gps s) && (Z.abs (gpsdifftime t (r_last_gps s) - leap * 1000) <=? GLO_SANITY_MS)).
Definition leap_of (s : rstate) : Z := match r_leap s with Some l => l | None => 0 end.

(** add_gps_obs_to_buffer: rtcm3_sbp.c:703-727 *)
Definition add_gps (m : legacy_msg) (s : rstate) : option (rstate * list out) :=
  match compute_gps_message_time (l_tow_ms m) (r_time s) with
  | None => None
  | Some t =>
    let o := base_sanity t (r_time s) in
    if negb (gps_time_valid t) then Some (s, o)
    else if is_msm_active t s then Some (s, o)
    else if negb (gps_time_valid (r_last_gps s)) || (1 <=? gpsdifftime t (r_last_gps s))   (* > 0.5 ms *)
    then match add_obs_to_buffer m t (set_last s t (r_last_glo s) (r_last_msm s)) with
         | None => None | Some (s, o') => Some (s, o ++ o') end
    else Some (s, o)
  end.
(** add_glo_obs_to_buffer: rtcm3_sbp.c:663-701 *)
Definition add_glo (m : legacy_msg) (s : rstate) : option (rstate * list out) :=
  match compute_glo_time (l_tow_ms m) (r_time s) (r_leap s) with
  | (false, _) | (true, None) => Some (s, [])
  | (true, Some t) =>
    if negb (gps_time_valid t) then Some (s, [])
    else if negb (glo_window t s (leap_of s)) then Some (s, [])
    else if is_msm_active t s then Some (s, [])
    else if negb (gps_time_valid (r_last_glo s)) || (1 <=? gpsdifftime t (r_last_glo s))
    then add_obs_to_buffer m t (set_last s (r_last_gps s) t (r_last_msm s))
    else Some (s, [])
  end.
(** the time an MSM message is given: rtcm3_sbp.c:1462-1500; inner None: the message is dropped *)
Definition msm_time (c : cons) (tow_ms : Z) (s : rstate) : option (option gtime * list out) :=
  match c with
  | GLO => match snd (compute_glo_time tow_ms (r_time s) (r_leap s)) with
           | None => Some (None, [])
           | Some t => if negb (gps_time_valid t) then Some (None, [])
                       else if glo_window t s (leap_of s) then Some (Some t, []) else Some (None, [])
           end
  | _ => let tow_ms := match c with BDS => beidou_tow_to_gps_tow tow_ms | _ => tow_ms end in
         match compute_gps_message_time tow_ms (r_time s) with
         | None => None
         | Some t => Some (if gps_time_valid t then Some t else None, base_sanity t (r_time s))
         end
  end.
(** add_msm_obs_to_buffer: rtcm3_sbp.c:1459-1657 *)
Definition add_msm (c : cons) (m : msm_msg) (s : rstate) : option (rstate * list out) :=
  match msm_time c (m_tow_ms m) s with
  | None => None
  | Some (None, o) => Some (s, o)
  | Some (Some t, o) =>
    if negb (gps_time_valid (r_last_gps s)) && (tow t =? 0) then Some (s, o)     (* 1502-1508 *)
    else
      let s := if negb (is_msm_active t s) && (0 <? len (r_buf s)) then set_buf s 0 0 [] else s in   (* 1510-1516 *)
      let s := set_last s t t t in
      let flush := negb (len (r_buf s) =? 0) && (negb (r_obs_tow s =? tow t) || negb (r_sender s =? sender_of (m_stn m))) in
      match (if flush then match send_observations s with None => None | Some (s, o') => Some (s, ONotEmpty :: o') end else Some (s, [])) with
      | None => None
      | Some (s, o1) =>
        let s := set_sender (set_buf s (wn t) (tow t) (r_buf s)) (sender_of (m_stn m)) in
        let '(b, full) := fill_msm (r_buf s) (m_cands m) in
        Some (set_buf s (wn t) (tow t) b, o ++ o1 ++ (if full then [OFull] else []))
      end
  end.

(** ** rtcm2sbp_decode_payload: rtcm3_sbp.c:133-636 *)
Definition ungated : list Z := [1005; 1006; 1029; 1071; 1072; 1073; 1081; 1082; 1083; 1091; 1092; 1093; 1101; 1102; 1103; 1111; 1112; 1113; 1121; 1122; 1123;
  4062; 4075; 1019; 1042; 1045; 1046].
Inductive kind := KGps | KGlo | KMsm (c : cons) | KOther.
Definition kind_of (ty : Z) : kind :=
  if (ty =? 1002) || (ty =? 1004) then KGps
  else if (ty =? 1010) || (ty =? 1012) then KGlo
  else if (1074 <=? ty) && (ty <=? 1077) then KMsm GPS
  else if (1084 <=? ty) && (ty <=? 1087) then KMsm GLO
  else if (1094 <=? ty) && (ty <=? 1097) then KMsm OTHER
  else if (1124 <=? ty) && (ty <=? 1127) then KMsm BDS
  else KOther.
Definition message_type (p : list Z) : Z := Z.lor (Z.shiftl (znth 0 0 p) 4) (Z.land (Z.shiftr (znth 0 1 p) 4) 15).

Context (legacy_dec : Z -> list Z -> option legacy_msg) (msm_dec : Z -> list Z -> option msm_msg) (utc_offset : gtime -> Z)
        (other : Z -> list Z -> rstate -> aux * list other_out).

(** [tin]: the time truth (or, with use_time_from_input_obs, the externally supplied time) at this moment; None: not solved *)
Definition decode_payload (tin : option gtime) (p : list Z) (s : rstate) : option (rstate * list out) :=
  if len p <? 2 then Some (s, [])
  else
    let ty := message_type p in
    let s := set_time s (match tin with Some t => t | None => mkt (-1) (-1000) end) in
    if match tin with None => negb (existsb (Z.eqb ty) ungated) | Some _ => false end then Some (s, [])
    else
      let s := match tin with Some t => set_leap s (Some (utc_offset t)) | None => s end in
      let r := match kind_of ty with
               | KGps => match legacy_dec ty p with Some m => add_gps m s | None => Some (s, []) end
               | KGlo => match legacy_dec ty p with
                         | Some m => match r_leap s with Some _ => add_glo m s | None => Some (s, []) end
                         | None => Some (s, []) end
               | KMsm c => match msm_dec ty p with Some m => add_msm c m s | None => Some (s, []) end
               | KOther => let '(a, os) := other ty p s in Some (set_aux s a, map OOther os)
               end in
      match r with
      | None => None
      | Some (s, o) =>
        if (1070 <=? ty) && (ty <=? 1229) && (54 <=? len p * 8) && (getbitu p 54 1 =? 0)
        then match send_observations s with None => None | Some (s, o') => Some (s, o ++ o') end
        else Some (s, o)
      end.
(** a stream: each payload arrives with the state of the time truth at that moment *)
Fixpoint decode_all (l : list (option gtime * list Z)) (s : rstate) : option (rstate * list out) :=
  match l with
  | [] => Some (s, [])
  | (tin, p) :: l => match decode_payload tin p s with
                     | None => None
                     | Some (s, o) => match decode_all l s with None => None | Some (s, o') => Some (s, o ++ o') end
                     end
  end.
End Obs.
Arguments legacy_msg : clear implicits.
Arguments msm_msg : clear implicits.
Arguments out : clear implicits.
Arguments rstate : clear implicits.
