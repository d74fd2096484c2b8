(** Concrete external functions and histories for the examples beside the NMEA theorems. *)
From Coq Require Import String.
From Flocq Require Import IEEE754.Binary IEEE754.Bits.
From Verif Require Import Base Double_model Signals_model RtcmMsm_model RtcmLegacy_model Sbp2Msm_model NmeaText_model NmeaTime_model Nmea_model NmeaState_model.
Open Scope Z_scope.
Open Scope list_scope.

Definition ex_code (c : Z) : code := if c =? 0 then GPS_L1CA else if c =? 3 then GLO_L1OF else if c =? 14 then GAL_E1B else if c =? 12 then BDS2_B1 else if c =? 2 then SBAS_L1CA else CODE_INVALID.
Definition ex_ff (w p : Z) (x : dbl) : list Z := str "1.5".
Definition ex_num (a b : Z) : dbl := dofZ 3.
Definition ex_builders : kind -> nst -> option (nst * list sent) :=
  send ex_code ex_ff (fun _ _ => dofZ 10) ex_num ex_num ex_num (fun _ => [dofZ 1; dofZ 1; dofZ 1; dofZ 1; dofZ 1; dofZ 1]) (fun _ => (dofZ 1, dofZ 1)) (fun _ => dofZ 1) (fun _ => dofZ 1).
Definition ex_eps : dbl := ddiv (dofZ 1) (dofZ 1048576).
Definition f10 : binary32 := fofbits 0x41200000.   (* 10.0f *)
Definition ex_utc : utc := mkutc 1 2024 12 31 23 59 59 996000000.
Definition ex_pos (lat : Z) : body := BPos (mkposm (dofZ lat) (dofZ (-122)) (dofZ 30) 0 9 4).
(** the messages of one epoch of the GNSS solution *)
Definition gnss_epoch (t : Z) : list call :=
  [CMsg sGPS_TIME_G (mkslot t (BTime 2200)); CMsg sUTC_TIME_G (mkslot t (BUtc ex_utc)); CMsg sPOS_G (mkslot t (ex_pos 37)); CMsg sVEL_G (mkslot t (BVel (mkvelm 1 2 3 1)));
   CMsg sAGE (mkslot t (BAge 10)); CMsg sDOPS (mkslot t (BDops (mkdopsm 120 110 100 130 1)))].
Definition ex_run (req : mode) (cs : list call) : option (nst * list out) := run ex_code ex_builders ex_eps (init req) cs.
Definition texts (r : option (nst * list out)) : list (kind * Z * list (list Z)) :=
  match r with Some (_, os) => List.map (fun o => (o_kind o, o_tow o, List.map (fun x => List.concat (snd x)) (o_sents o))) os | None => [] end.
(** kinds and times of the emissions *)
Definition trace (r : option (nst * list out)) : option (list (kind * Z)) := match r with Some (_, os) => Some (List.map (fun o => (o_kind o, o_tow o)) os) | None => None end.
(** 10 Hz, every kind at every epoch *)
Definition setup : list call := CFreq f10 :: List.map (fun k => CRate k 1) all_kinds.
(** the messages of one epoch of the fused solution *)
Definition fused_epoch (t : Z) : list call :=
  [CMsg sGROUP (mkslot 0 BNone); CMsg sGPS_TIME (mkslot t (BTime 2200)); CMsg sUTC_TIME (mkslot t (BUtc ex_utc)); CMsg sPOS (mkslot t (ex_pos 37));
   CMsg sVEL (mkslot t (BVel (mkvelm 1 2 3 1))); CMsg sSOLN (mkslot t (BSoln (mksolnm 100 100 10)))].
Definition without (id : sid) (cs : list call) : list call := filter (fun c => match c with CMsg i _ => if sid_eq_dec i id then false else true | _ => true end) cs.
(** an observation message: [count] of [total], GPS L1CA *)
Definition ex_obs (tow total count : Z) (sats : list Z) : call := CObs (mkobsm tow 2200 (16 * total + count) (List.map (fun s => (mksig s 0, 15)) sats)).
Definition kinds_at (t : Z) (ks : list kind) : list (kind * Z) := List.map (fun k => (k, t)) ks.
(** satellites in view and measurements *)
Definition sky : list call :=
  [CMsg sAZEL (mkslot 0 (BAzel [mkazel (mksig 3 0) 20 45; mkazel (mksig 5 0) 100 (-5); mkazel (mksig 7 3) 10 20; mkazel (mksig 8 0) 1 2; mkazel (mksig 9 0) 1 2; mkazel (mksig 10 0) 1 2]));
   CMsg sMEAS (mkslot 0 (BMeas [mkmeas (mksig 3 0) 180; mkmeas (mksig 7 3) 122]))].
(** the strings handed to the callback *)
Definition delivered (r : option (nst * list out)) : list (list Z) :=
  match r with
  | Some (_, os) => List.map (fun x => match sentence (fst x) (repeat 0 (Z.to_nat (fst x + 6))) (snd x) with Ok t => t | _ => [] end) (flat_map o_sents os)
  | None => []
  end.
Definition ex_history : list call := setup ++ sky ++ [ex_obs 100000 2 0 [3; 5]; ex_obs 100000 2 1 [7]] ++ gnss_epoch 100000.
