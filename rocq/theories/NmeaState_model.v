(** Model of the SBP to NMEA state machine: c/gnss_converters/src/sbp_nmea.c and check_nmea_rate (nmea.c:1354-1368). *)
From Coq Require Import String.
From Flocq Require Import IEEE754.Binary IEEE754.Bits.
From Verif Require Import Base Double_model Signals_model RtcmMsm_model RtcmLegacy_model Sbp2Msm_model Sbp2Rtcm_model NmeaText_model NmeaTime_model Nmea_model.
Open Scope Z_scope.

(** get_tow: sbp_nmea.c:128-166.  The tow fields are at the same place of the union: the slot's tow; the switch is over the id before translation. *)
Definition get_tow (s : nst) (id : sid) (consider_mode : bool) : Z :=
  match id with sAZEL | sMEAS | sGROUP => 0 | _ => s_tow (msg_get s id consider_mode) end.
(** nmea_meta[].gnss_tow_mask and .available_in_fused: sbp_nmea.c:32-107 *)
Definition solution_mask : list sid := [sPOS_G; sGPS_TIME_G; sVEL_G; sDOPS; sAGE].
Definition tow_mask (k : kind) : list sid :=
  match k with HDT => [sHDG] | ZDA | GSV => [] | THS => [sORIENT; sPOS_G] | _ => solution_mask end.
Definition in_fused (k : kind) : bool := match k with HDT | GSA | GSV => false | _ => true end.
(** sbp_gpsdifftime: sbp_nmea.c:168-177, with libswiftnav's gpsdifftime for known week numbers: the same arithmetic as sbp_diff_time (Sbp2Rtcm_model.v).
    Simplification: week 65535, which gpsdifftime would read as "unknown", is not treated specially. *)
Definition gpsdiff (wn_a tow_a wn_b tow_b : Z) : option dbl := sbp_diff_time (mkohdr tow_a 0 wn_a 0) (mkohdr tow_b 0 wn_b 0).

(** nmea_ready: sbp_nmea.c:179-234; None: overflow in the time difference *)
Definition nmea_ready (s : nst) (k : kind) : option bool :=
  if mode_eqb (n_req s) mFUSED && negb (in_fused k) then Some false
  else if mode_eqb (n_act s) mFUSED && in_fused k then
    Some (if negb (n_wagon s) then false else negb (n_last s k =? get_tow s sUTC_TIME false))
  else if n_last s k =? get_tow s sUTC_TIME_G false then Some false
  else
    let tows := forallb (fun id => get_tow s id false =? get_tow s sUTC_TIME_G false) (tow_mask k) in
    if kind_eq_dec k GSA then
      if negb (n_seq_count s =? n_seq_total s - 1) then Some false
      else let g := msg_get s sGPS_TIME_G false in
           match gpsdiff (as_wn g) (s_tow g) (n_obs_wn s) (n_obs_tow s) with
           | None => None
           | Some d => Some (if dgtb d dzero then false else tows)
           end
    else Some tows.

(** (u32)(1.0 / soln_freq * 1e3); None: the conversion is undefined *)
Definition period_ms (freq : binary32) : option Z :=
  match dtrunc (dmul (ddiv (dofZ 1) (dofflt freq)) (dofZ 1000)) with
  | Some p => if (0 <=? p) && (p <? 2 ^ 32) then Some p else None
  | None => None
  end.
(** check_nmea_rate: nmea.c:1347-1362; None: undefined behaviour (conversion, division by zero) *)
Definition check_nmea_rate (rate tow : Z) (freq : binary32) : option bool :=
  if rate =? 0 then Some false
  else match period_ms freq with
  | None => None
  | Some p => let out := (p * rate) mod 2 ^ 32 in if out =? 0 then None else Some (tow mod out <? p / 2)
  end.

(** what an emission is: the kind, the time of week it is marked with, the sentences *)
Record out := mkout { o_kind : kind; o_tow : Z; o_sents : list (Z * list (list Z)) }.
Definition set_last (s : nst) (k : kind) (t : Z) : nst :=
  mknst (n_sids s) (n_seq_count s) (n_seq_total s) (n_obs_wn s) (n_obs_tow s) (n_req s) (n_act s) (n_wagon s) (n_base s)
    (fun j => if kind_eq_dec j k then t else n_last s j) (n_rate s) (n_slot s) (n_freq s) (n_cog_thd s) (n_cog_upd s) (n_last_cog s).

Section Machine.
Variable code_of : Z -> code.
Variable snd_ : kind -> nst -> option (nst * list sent).   (* nmea_meta[].send, Nmea_model.v *)
(** FLOAT_EQUALITY_EPS (libswiftnav) *)
Variable eps : dbl.

(** check_nmea_send: sbp_nmea.c:237-258 *)
Fixpoint send_loop (mode_tow gnss_tow : Z) (freq : binary32) (ks : list kind) (s : nst) : option (nst * list out) :=
  match ks with
  | [] => Some (s, [])
  | k :: ks =>
      let tow := if in_fused k then mode_tow else gnss_tow in
      match nmea_ready s k with
      | None => None
      | Some false => send_loop mode_tow gnss_tow freq ks s
      | Some true =>
          match check_nmea_rate (n_rate s k mod 2 ^ 32) tow freq with
          | None => None
          | Some false => send_loop mode_tow gnss_tow freq ks s
          | Some true =>
              match snd_ k s with
              | None => None
              | Some (s1, txt) =>
                  match send_loop mode_tow gnss_tow freq ks (set_last s1 k tow) with
                  | None => None
                  | Some (s2, outs) => Some (s2, mkout k tow txt :: outs)
                  end
              end
          end
      end
  end.
Definition check_nmea_send (s : nst) : option (nst * list out) :=
  send_loop (get_tow s sUTC_TIME true) (get_tow s sUTC_TIME_G false) (n_freq s) all_kinds s.

Definition NUM_SATS_GLO : Z := 28.
(** sbp2nmea_discard_sbp: sbp_nmea.c:260-275; IS_GLO: constellation of the code *)
Definition is_glo (g : sigid) : bool := match cons_of (code_of (sg_code g)) with Some cGLO => true | _ => false end.
Definition discard (id : sid) (m : slot) : bool :=
  match id with
  | sMEAS => existsb (fun x => is_glo (me_sid x) && (NUM_SATS_GLO <? sg_sat (me_sid x))) (as_meas m)
  | _ => false
  end.
(** recode_legacy_sbp_id: sbp_nmea.c:277-294 *)
Definition recode (s : nst) (id : sid) : sid :=
  if mode_eqb (n_req s) mGNSS then match id with sGPS_TIME => sGPS_TIME_G | sUTC_TIME => sUTC_TIME_G | sPOS => sPOS_G | sVEL => sVEL_G | _ => id end else id.
Definition with_mode (s : nst) (act : mode) (wagon : bool) : nst :=
  mknst (n_sids s) (n_seq_count s) (n_seq_total s) (n_obs_wn s) (n_obs_tow s) (n_req s) act wagon (n_base s) (n_last s) (n_rate s) (n_slot s)
    (n_freq s) (n_cog_thd s) (n_cog_upd s) (n_last_cog s).
(** update_mode, check_fused_wagon_complete: sbp_nmea.c:296-314 *)
Definition update_mode (s : nst) (id : sid) : nst :=
  if mode_eqb (n_req s) mBEST && mode_eqb (n_act s) mGNSS && (if sid_eq_dec id sGROUP then true else false) then with_mode s mFUSED (n_wagon s) else s.
Definition check_wagon (s : nst) (id : sid) : nst :=
  if negb (mode_eqb (n_act s) mFUSED) then s
  else match id with sGROUP => with_mode s (n_act s) false | sSOLN => with_mode s (n_act s) true | _ => s end.
(** sbp2nmea_msg_set: sbp_nmea.c:391-398 *)
Definition msg_set (s : nst) (id : sid) (m : slot) : nst :=
  mknst (n_sids s) (n_seq_count s) (n_seq_total s) (n_obs_wn s) (n_obs_tow s) (n_req s) (n_act s) (n_wagon s) (n_base s) (n_last s) (n_rate s)
    (fun j => if sid_eq_dec j id then m else n_slot s j) (n_freq s) (n_cog_thd s) (n_cog_upd s) (n_last_cog s).
(** sbp2nmea: sbp_nmea.c:316-328 *)
Definition sbp2nmea (s : nst) (id : sid) (m : slot) : option (nst * list out) :=
  let id := recode s id in
  let s := update_mode s id in
  let s := check_wagon s id in
  if discard id m then Some (s, []) else check_nmea_send (msg_set s id m).

(** an observation message: header (tow, wn, n_obs byte) and the entries (signal, flags) *)
Record obsm := mkobsm { om_tow : Z; om_wn : Z; om_nobs : Z; om_obs : list (sigid * Z) }.
Definition OBSERVATION_VALID : Z := 0x1000000.
Definition om_total (m : obsm) : Z := om_nobs m / 16.
Definition om_count (m : obsm) : Z := om_nobs m mod 16.
Definition with_obs (s : nst) (sids : list sigid) (count total wn tow : Z) : nst :=
  mknst sids count total wn tow (n_req s) (n_act s) (n_wagon s) (n_base s) (n_last s) (n_rate s) (n_slot s) (n_freq s) (n_cog_thd s) (n_cog_upd s) (n_last_cog s).
(** sbp2nmea_obs: sbp_nmea.c:353-379 (the header's n_obs byte is split by unpack_obs_header, sbp_nmea.c:344-351).
    nav_sids[256], indexed by the u8 num_obs: None when the 256th entry would be counted (num_obs wraps); unreachable, see C50. *)
Definition sbp2nmea_obs (s : nst) (m : obsm) : option (nst * list out) :=
  let total := om_total m in
  let count := om_count m in
  let rejected :=
    if count =? 0 then Some false
    else match gpsdiff (om_wn m) (om_tow m) (n_obs_wn s) (n_obs_tow s) with
         | None => None
         | Some d => Some (dgtb (dabs d) eps || negb (n_obs_wn s =? om_wn m) || negb (n_seq_count s + 1 =? count))
         end in
  match rejected with
  | None => None
  | Some true => Some (with_obs s (n_sids s) (n_seq_count s) total (n_obs_wn s) (n_obs_tow s), [])
  | Some false =>
      let sids := ((if (count =? 0)%Z then [] else n_sids s) ++ List.map fst (filter (fun o => Z.land (snd o) OBSERVATION_VALID =? 0) (om_obs m)))%list in
      if 255 <? len sids then None
      else check_nmea_send (with_obs s sids count total (om_wn m) (om_tow m))
  end.

(** the setters: sbp_nmea.c:330-332, 400-415 *)
Definition set_rate (s : nst) (k : kind) (r : Z) : nst :=
  mknst (n_sids s) (n_seq_count s) (n_seq_total s) (n_obs_wn s) (n_obs_tow s) (n_req s) (n_act s) (n_wagon s) (n_base s) (n_last s)
    (fun j => if kind_eq_dec j k then r else n_rate s j) (n_slot s) (n_freq s) (n_cog_thd s) (n_cog_upd s) (n_last_cog s).
Definition set_base (s : nst) (b : Z) : nst :=
  mknst (n_sids s) (n_seq_count s) (n_seq_total s) (n_obs_wn s) (n_obs_tow s) (n_req s) (n_act s) (n_wagon s) b (n_last s) (n_rate s) (n_slot s)
    (n_freq s) (n_cog_thd s) (n_cog_upd s) (n_last_cog s).
Definition set_freq (s : nst) (f : binary32) : nst :=
  mknst (n_sids s) (n_seq_count s) (n_seq_total s) (n_obs_wn s) (n_obs_tow s) (n_req s) (n_act s) (n_wagon s) (n_base s) (n_last s) (n_rate s) (n_slot s)
    f (n_cog_thd s) (n_cog_upd s) (n_last_cog s).
Definition set_cog (s : nst) (thd upd : dbl) : nst :=
  mknst (n_sids s) (n_seq_count s) (n_seq_total s) (n_obs_wn s) (n_obs_tow s) (n_req s) (n_act s) (n_wagon s) (n_base s) (n_last s) (n_rate s) (n_slot s)
    (n_freq s) thd upd (n_last_cog s).

(** the calls of a user of the converter *)
Inductive call := CMsg (id : sid) (m : slot) | CObs (m : obsm) | CRate (k : kind) (r : Z) | CBase (b : Z) | CFreq (f : binary32) | CCog (thd upd : dbl).
Definition step (s : nst) (c : call) : option (nst * list out) :=
  match c with
  | CMsg id m => sbp2nmea s id m
  | CObs m => sbp2nmea_obs s m
  | CRate k r => Some (set_rate s k r, [])
  | CBase b => Some (set_base s b, [])
  | CFreq f => Some (set_freq s f, [])
  | CCog a b => Some (set_cog s a b, [])
  end.
Fixpoint run (s : nst) (cs : list call) : option (nst * list out) :=
  match cs with
  | [] => Some (s, [])
  | c :: cs => match step s c with
               | None => None
               | Some (s1, o1) => match run s1 cs with None => None | Some (s2, o2) => Some (s2, o1 ++ o2)%list end
               end
  end.
End Machine.

(** sbp2nmea_init: sbp_nmea.c:417-429; NMEA_COG_STATIC_LIMIT_MPS 0.1f *)
Definition f01 : dbl := dofflt (fofbits 0x3dcccccd).
Definition init (req : mode) : nst :=
  mknst [] 0 0 0 0 req mGNSS false 0 (fun _ => 0) (fun _ => 0) (fun _ => mkslot 0 BNone) (fofbits 0) f01 f01 dzero.
