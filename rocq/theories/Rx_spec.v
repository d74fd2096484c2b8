(** C81: a whole epoch of RTCM observation messages, from the payloads (MsmWire_spec, LegRx_spec) and their arrival times alone. *)
From Verif Require Import Base Bitstring Bits_model Bitstream_model Time_model RtcmStation_spec RtcmLayout_spec RtcmLegacy_model RtcmMsm_model RtcmMsm_spec Signals_model Sbp2Rtcm_model MsmVal_model MsmWire_spec Options_model
  ObsBuffer_model ObsBuffer_spec ObsExcl_spec Properties_msmrx Properties_legrx LegRx_spec.
Local Open Scope Z_scope.

Definition WEEK : Z := 604800000.
(** message numbers: MSM4-MSM7 of GPS, GLONASS, Galileo, BeiDou; legacy observations *)
Definition converted_msm : list Z := [1074; 1075; 1076; 1077; 1084; 1085; 1086; 1087; 1094; 1095; 1096; 1097; 1124; 1125; 1126; 1127].
Definition legacy_numbers : list Z := [1002; 1004; 1010; 1012].
(** the number and the multiple message bit (the 55th bit) of a payload *)
Definition number_of (p : list Z) : Z := val_be (take 12 (bits_of_bytes p)).
Definition more_follow (p : list Z) : bool := znth false 54 (bits_of_bytes p).

Section Spec.
Variables (carrier num_of : code -> Z) (op : opts) (masked : RtcmMsm_model.cons -> bool) (utc_offset : gtime -> Z).

(** [msm_part x stn more ty h w e]: payload e, received at a known time, is an MSM4-MSM7 message (type [ty], header [h], contents [w]) of station [stn] for the instant [x];
    [more]: more messages of the epoch follow *)
Definition msm_part (x stn more ty : Z) (h : mhdr) (w : wcols) (e : event) : Prop :=
  exists ref p, e = (Some ref, p) /\ good_time utc_offset ref /\ bytes p /\ 4 <= ty <= 7 /\ carries ty h w p /\ ordinary ty h w /\ mh_stn h = stn /\ mh_multiple h = more /\
    match to_constellation (mh_num h) with
    | cGPS | cGAL => instant_of_week ref (mh_tow h) x
    | cBDS => instant_of_week ref ((mh_tow h + 14000) mod WEEK) x
    | cGLO => instant_of_day utc_offset ref (mh_tow h mod 86400000) x /\ plausible utc_offset ref x
    | _ => False
    end.
(** a payload in between that is not a converted observation message and does not end an epoch *)
Definition quiet (e : event) : Prop :=
  bytes (snd e) /\ (forall ref, fst e = Some ref -> good_time utc_offset ref) /\
  (len (snd e) < 2 \/
   (~ In (number_of (snd e)) (converted_msm ++ legacy_numbers) /\ (1070 <= number_of (snd e) <= 1229 -> len (snd e) < 7 \/ more_follow (snd e) = true))).
(** a message of the MSM range whose observations are not converted (SBAS, QZSS, MSM1-MSM3, ..), the last of its epoch *)
Definition closing (e : event) : Prop :=
  exists ref p, e = (Some ref, p) /\ good_time utc_offset ref /\ bytes p /\ 7 <= len p /\ ~ In (number_of p) converted_msm /\ 1070 <= number_of p <= 1229 /\ more_follow p = false.
(** the channel map after payload e: a complete ephemeris 1020 of slot 1..28 (DF038) sets the channel of its satellite (DF040; above 13: unknown) *)
Definition learn (map : list Z) (e : event) : list Z :=
  match e with
  | (Some ref, p) =>
      let bs := bits_of_bytes p in let u := U t1020 bs in
      if (number_of p =? 1020) && ((if u 131 =? 1 then bits_of t1020 - 7 else bits_of t1020 - 78) <=? len bs) && (1 <=? u 38) && (u 38 <=? 28) && (u 110 <=? 96)
      then zupd (u 38) (fun _ => if u 40 <=? 13 then u 40 else 255) map else map
  | _ => map
  end.

(** [msm_epoch x stn started es n]: es is (the rest of) the epoch of instant x of station stn, with n cells; [started]: an observation message came before *)
Inductive msm_epoch (x stn : Z) : bool -> list event -> Z -> Prop :=
| me_last b e ty h w : msm_part x stn 0 ty h w e -> msm_epoch x stn b [e] (set_count (cell_mask h))
| me_closed e : closing e -> msm_epoch x stn true [e] 0
| me_more b e ty h w es n : msm_part x stn 1 ty h w e -> msm_epoch x stn true es n -> msm_epoch x stn b (e :: es) (set_count (cell_mask h) + n)
| me_quiet b e es n : quiet e -> msm_epoch x stn b es n -> msm_epoch x stn b (e :: es) n.
(** what the observations of the epoch are: those of its messages, in order, each as [says_all] says with the channels known at that moment *)
Inductive epoch_obs (x stn : Z) : list Z -> list event -> list pobs -> Prop :=
| eo_nil map : epoch_obs x stn map [] []
| eo_part map more e ty h w os es os' : msm_part x stn more ty h w e -> says_all carrier num_of op (mkrcfg masked map) ty h w (Some os) -> epoch_obs x stn map es os' ->
    epoch_obs x stn map (e :: es) (os ++ os')
| eo_other map e es os : quiet e \/ closing e -> epoch_obs x stn (learn map e) es os -> epoch_obs x stn map (e :: es) os.

(** the same for legacy messages: at most one GPS (1002, 1004) and one GLONASS message (1010, 1012) *)
Definition leg_part (x stn sync : Z) (s : sys) (dual : bool) (h : hdr) (l : list lsat) (e : event) : Prop :=
  exists ref p, e = (Some ref, p) /\ good_time utc_offset ref /\ bytes p /\ carries_leg s dual h l p /\ Forall (regular s dual) l /\ Forall (fun y => 4 <= f_amb y) l /\
    h_stn h = stn /\ h_sync h = sync /\
    match s with
    | RtcmLegacy_model.GPS => instant_of_week ref (h_tow h) x
    | RtcmLegacy_model.GLO => instant_of_day utc_offset ref (h_tow h) x /\ plausible utc_offset ref x
    end.
Definition mark (s : sys) (d : sys -> bool) : sys -> bool := fun t => match s, t with RtcmLegacy_model.GPS, RtcmLegacy_model.GPS | RtcmLegacy_model.GLO, RtcmLegacy_model.GLO => true | _, _ => d t end.
Inductive leg_epoch (x stn : Z) : (sys -> bool) -> list event -> Prop :=
| le_last d s dual h l e : d s = false -> leg_part x stn 0 s dual h l e -> leg_epoch x stn d [e]
| le_more d s dual h l e es : d s = false -> leg_part x stn 1 s dual h l e -> leg_epoch x stn (mark s d) es -> leg_epoch x stn d (e :: es)
| le_quiet d e es : quiet e -> leg_epoch x stn d es -> leg_epoch x stn d (e :: es).
Inductive leg_epoch_obs (x stn : Z) : list event -> list pobs -> Prop :=
| leo_nil : leg_epoch_obs x stn [] []
| leo_part sync s dual h l e os es os' : leg_part x stn sync s dual h l e -> leg_all num_of op s dual h l (Some (h, os)) -> leg_epoch_obs x stn es os' -> leg_epoch_obs x stn (e :: es) (os ++ os')
| leo_quiet e es os : quiet e -> leg_epoch_obs x stn es os -> leg_epoch_obs x stn (e :: es) os.

(** several epochs, one after another: (legacy?, instant, station, payloads) *)
Definition epoch : Type := bool * Z * Z * list event.
Definition complete_epoch (q : epoch) : Prop :=
  match q with
  | (true, x, stn, es) => leg_epoch x stn (fun _ => false) es
  | (false, x, stn, es) => exists n, n <= 210 /\ msm_epoch x stn false es n
  end.
(** legacy epochs come in order, and not within 5 s of an MSM epoch before them; the first MSM epoch is not exactly at the start of a week ([last], [last_msm]: the instants of the epoch and of the MSM epoch before, if any) *)
Fixpoint spaced (last last_msm : option Z) (eps : list epoch) : Prop :=
  match eps with
  | [] => True
  | (false, x, _, _) :: eps => (last_msm = None -> x mod WEEK <> 0) /\ spaced (Some x) (Some x) eps
  | (true, x, _, _) :: eps => (forall y, last = Some y -> y < x) /\ (forall y, last_msm = Some y -> y + 5000 <= x) /\ spaced (Some x) last_msm eps
  end.
(** [gs]: for each epoch, the SBP messages of it *)
Fixpoint epochs_seen {O : Type} (map : list Z) (eps : list epoch) (gs : list (list (out pobs O))) : Prop :=
  match eps, gs with
  | [], [] => True
  | (leg, x, stn, es) :: eps, g :: gs =>
      (exists os, (if leg then leg_epoch_obs x stn es os else epoch_obs x stn map es os) /\ epoch_messages (sender_of stn) (x / WEEK) (x mod WEEK) os g) /\ epochs_seen (fold_left learn es map) eps gs
  | _, _ => False
  end.
End Spec.
