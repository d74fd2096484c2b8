(** Specification vocabulary for C45-C50. *)
From Verif Require Import Base NmeaTime_model Nmea_model NmeaState_model Nmea_spec.

(** the SBP messages the sentences of a kind are built from, when the solution is the GNSS-only one *)
Definition sources_gnss (k : kind) : list sid :=
  match k with
  | GGA => [sPOS_G; sUTC_TIME_G; sDOPS; sAGE]
  | RMC => [sPOS_G; sVEL_G; sUTC_TIME_G]
  | VTG => [sPOS_G; sVEL_G]
  | HDT => [sHDG]
  | GLL => [sPOS_G; sUTC_TIME_G]
  | ZDA => [sUTC_TIME_G]
  | GSA => [sDOPS]
  | GST => [sPOS_G; sUTC_TIME_G]
  | GSV => [sAZEL; sMEAS]
  | PUBX => [sPOS_G; sVEL_G; sUTC_TIME_G; sAGE; sDOPS]
  | THS => [sORIENT; sPOS_G]
  end.
(** ... and when it is the fused one *)
Definition sources_fused (k : kind) : list sid :=
  match k with
  | GGA => [sPOS; sUTC_TIME; sSOLN]
  | RMC => [sPOS; sVEL; sUTC_TIME]
  | VTG => [sPOS; sVEL]
  | HDT => [sHDG]
  | GLL => [sPOS; sUTC_TIME]
  | ZDA => [sUTC_TIME]
  | GSA => [sDOPS]
  | GST => [sPOS; sUTC_TIME]
  | GSV => [sAZEL; sMEAS]
  | PUBX => [sPOS; sVEL; sUTC_TIME; sSOLN]
  | THS => [sORIENT; sPOS]
  end.
Definition sources (act : mode) : kind -> list sid := match act with mGNSS => sources_gnss | _ => sources_fused end.
(** messages that carry a time of week *)
Definition timed (id : sid) : Prop := id <> sAZEL /\ id <> sMEAS /\ id <> sGROUP.
(** two states that agree on what the sentences of kind [k] may depend on: these messages, the satellite list, the course bookkeeping, the base station *)
Definition agree (k : kind) (s t : nst) : Prop :=
  n_act s = n_act t /\ (forall id, In id (sources (n_act s) k) -> n_slot s id = n_slot t id) /\ n_sids s = n_sids t /\ n_base s = n_base t /\
  n_cog_thd s = n_cog_thd t /\ n_cog_upd s = n_cog_upd t /\ n_last_cog s = n_last_cog t.

(** the emissions of one kind *)
Definition of_kind (k : kind) (os : list out) : list out := filter (fun o => if kind_eq_dec (o_kind o) k then true else false) os.
(** the times of week of the GNSS UTC messages in a history, where without request for the fused solution the legacy id counts too *)
Fixpoint utc_tows (req : mode) (cs : list call) : list Z :=
  match cs with
  | [] => []
  | CMsg sUTC_TIME_G m :: cs => s_tow m :: utc_tows req cs
  | CMsg sUTC_TIME m :: cs => match req with mGNSS => s_tow m :: utc_tows req cs | _ => utc_tows req cs end
  | _ :: cs => utc_tows req cs
  end.
Fixpoint nondecreasing (lo : Z) (l : list Z) : Prop := match l with [] => True | t :: l => lo <= t /\ nondecreasing t l end.

(** a fused group has been announced *)
Definition is_group (c : call) : bool := match c with CMsg sGROUP _ => true | _ => false end.

(** observation messages of a history; in range: a time of week, a week after the first one, at most 14 observations, byte-sized flags *)
Fixpoint obs_calls (cs : list call) : list obsm := match cs with [] => [] | CObs m :: cs => m :: obs_calls cs | _ :: cs => obs_calls cs end.
Definition obs_ok (m : obsm) : Prop :=
  0 <= om_tow m < 604800000 /\ 1 <= om_wn m <= 3550 /\ 0 <= om_nobs m < 256 /\ len (om_obs m) <= 14 /\ Forall (fun o => 0 <= snd o < 256) (om_obs m).
Definition call_ok (c : call) : Prop :=
  match c with CObs m => obs_ok m | CMsg _ m => 0 <= s_tow m < 604800000 /\ 0 <= as_wn m <= 3550 | _ => True end.
(** the messages of the epoch being received that have arrived in sequence: a message with position 0 starts afresh, the next one of the same
    time is appended, any other is ignored *)
Definition same_time (m m' : obsm) : bool := (om_tow m =? om_tow m') && (om_wn m =? om_wn m').
Definition extend (ms : list obsm) (m : obsm) : list obsm :=
  if om_count m =? 0 then [m]
  else match ms with
       | [] => []
       | m0 :: _ => if same_time m0 m && (om_count m =? len ms) then ms ++ [m] else ms
       end.
Definition in_sequence (ms : list obsm) : list obsm := fold_left extend ms [].
(** the messages 0, 1, ..., of one epoch, in order *)
Definition one_epoch (ms : list obsm) : Prop :=
  (forall i m, nth_error ms i = Some m -> om_count m = Z.of_nat i) /\ (forall m m', In m ms -> In m' ms -> om_tow m = om_tow m' /\ om_wn m = om_wn m').
Definition all_sids (m : obsm) : list sigid := List.map fst (om_obs m).

(** the last message of a kind in a history; the zeroed entry before the first one.  Without request for the fused solution the legacy ids are
    taken as the GNSS ones; a measurement state naming a GLONASS satellite above 28 is thrown away. *)
Definition effective (req : mode) (id : sid) : sid :=
  match req, id with mGNSS, sGPS_TIME => sGPS_TIME_G | mGNSS, sUTC_TIME => sUTC_TIME_G | mGNSS, sPOS => sPOS_G | mGNSS, sVEL => sVEL_G | _, _ => id end.
Definition thrown_away (glo : sigid -> bool) (id : sid) (m : slot) : bool :=
  match id with sMEAS => existsb (fun x => glo (me_sid x) && (28 <? sg_sat (me_sid x))) (as_meas m) | _ => false end.
Fixpoint last_msg (glo : sigid -> bool) (req : mode) (id : sid) (cs : list call) (d : slot) : slot :=
  match cs with
  | [] => d
  | CMsg i m :: cs => last_msg glo req id cs (if sid_eq_dec (effective req i) id then if thrown_away glo (effective req i) m then d else m else d)
  | _ :: cs => last_msg glo req id cs d
  end.
Definition zeroed : slot := mkslot 0 BNone.
(** the mode a history leads to *)
Definition mode_after (req : mode) (cs : list call) : mode := if mode_eqb req mBEST && existsb is_group cs then mFUSED else mGNSS.

(** ranges of the arguments of a call *)
Definition wf_call (c : call) : Prop :=
  match c with CMsg _ m => wf_slot m | CObs m => Forall (fun o => wf_sid (fst o)) (om_obs m) | _ => True end.

(** the configured rate of a kind and the solution frequency after a history *)
Fixpoint last_rate (k : kind) (cs : list call) (d : Z) : Z :=
  match cs with [] => d | CRate j r :: cs => last_rate k cs (if kind_eq_dec j k then r else d) | _ :: cs => last_rate k cs d end.
Fixpoint last_freq (cs : list call) (d : Flocq.IEEE754.Bits.binary32) : Flocq.IEEE754.Bits.binary32 :=
  match cs with [] => d | CFreq f :: cs => last_freq cs f | _ :: cs => last_freq cs d end.
(** the messages of an epoch that have to be complete before the sentences of a kind are sent *)
Definition required (k : kind) : list sid :=
  match k with
  | GGA | RMC | VTG | GLL | GSA | GST | PUBX => [sPOS_G; sGPS_TIME_G; sVEL_G; sDOPS; sAGE]
  | HDT => [sHDG] | THS => [sORIENT; sPOS_G] | ZDA | GSV => []
  end.
