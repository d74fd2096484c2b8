(** Specification vocabulary for C47: the satellite lists of the GSA and GSV sentences. *)
From Coq Require Import String Sorting.Sorted.
From Verif Require Import Base Signals_model RtcmMsm_model RtcmLegacy_model Sbp2Msm_model NmeaText_model Nmea_model.
Open Scope Z_scope.
Open Scope list_scope.

(** the decimal number [n], with at least [w] digits *)
Definition dec_value (l : list Z) : Z := fold_left (fun v c => 10 * v + (c - 48)) l 0.
Definition number (w n : Z) (l : list Z) : Prop := Forall (fun c => 48 <= c <= 57) l /\ dec_value l = n /\ w <= len l /\ 1 <= len l /\ (w < len l -> 1 < len l -> hd 0 l <> 48).
Definition signed_number (w n : Z) (l : list Z) : Prop := (0 <= n /\ number w n l) \/ (n < 0 /\ exists r, l = 45 :: r /\ number (w - 1) (- n) r).

(** the talker of a constellation and the number of one of its satellites *)
Definition talker_of (c : cons) (t : Z) : Prop :=
  match c with cGPS | cQZS | cSBAS => t = 0 | cGLO => t = 1 | cGAL => t = 2 | cBDS => t = 3 | cINVALID => False end.
Definition id_of (c : cons) (sat : Z) : Z :=
  match c with cGPS => sat | cSBAS => sat - 87 | cGLO => sat + 64 | cGAL => sat + 300 | cBDS => sat + 400 | cQZS => sat + 192 | cINVALID => 0 end.
Definition talker_name (t : Z) : list Z := if t =? 0 then [71; 80] else if t =? 1 then [71; 76] else if t =? 2 then [71; 65] else [71; 66].

Section Spec.
Variable code_of : Z -> code.
(** signal [g] belongs to talker [t] and its satellite has number [id] *)
Definition sat_of (t id : Z) (g : sigid) : Prop := exists c, cons_of (code_of (sg_code g)) = Some c /\ talker_of c t /\ id = id_of c (sg_sat g) mod 65536.
Definition known (g : sigid) : Prop := cons_of (code_of (sg_code g)) <> None.

(** the list of numbers of a GSA sentence for the satellites of [gs] that belong to talker [t] *)
Definition gsa_numbers (t : Z) (gs : list sigid) (ids : list Z) : Prop :=
  StronglySorted Z.lt ids /\ len ids <= 12 /\ (forall id, In id ids -> exists g, In g gs /\ sat_of t id g) /\
  (len ids < 12 -> forall id g, In g gs -> sat_of t id g -> In id ids).
(** $xxGSA,A,m,n1,...,n12,dops where unused number fields are empty and [m] is 3 with a fix, else 1 *)
Definition gsa_text (name : list Z) (fix_ : bool) (ids : list Z) (txt : list Z) : Prop :=
  exists nums dops, Forall2 (number 2) ids nums /\
  txt = [36] ++ name ++ [71; 83; 65; 44; 65; 44; (if fix_ then 51 else 49); 44] ++ List.concat (List.map (fun n => n ++ [44]) nums) ++ repeat 44 (12 - Datatypes.length ids) ++ dops.

(** one satellite of a GSV sentence: number, elevation, azimuth, and the C/N0 of the first measurement of the same satellite, if any *)
Definition same_sat (a b : sigid) : bool :=
  (sg_sat a =? sg_sat b) && match cons_of (code_of (sg_code a)), cons_of (code_of (sg_code b)) with Some c, Some d => cons_eqb c d | _, _ => false end.
Definition gsv_item (t : Z) (ms : list meas) (a : azel) (txt : list Z) : Prop :=
  exists id i e z q, sat_of t id (ae_sid a) /\ number 2 id i /\ signed_number 2 (ae_el a) e /\ number 3 (2 * ae_az a) z /\
  match find (fun m => same_sat (me_sid m) (ae_sid a)) ms with Some m => number 2 ((me_cn0 m + 2) / 4) q | None => q = [] end /\
  txt = [44] ++ i ++ [44] ++ e ++ [44] ++ z ++ [44] ++ q.
Definition in_talker (t : Z) (a : azel) : bool :=
  match cons_of (code_of (sg_code (ae_sid a))) with
  | Some cGPS | Some cQZS | Some cSBAS => t =? 0 | Some cGLO => t =? 1 | Some cGAL => t =? 2 | Some cBDS => t =? 3 | _ => false end.
(** sentence number [i] of [total] with the satellites [l], [count] satellites in all *)
Definition gsv_text (t total i count : Z) (ms : list meas) (l : list azel) (txt : list Z) : Prop :=
  exists a b c items, number 0 total a /\ number 0 i b /\ number 2 count c /\ Forall2 (gsv_item t ms) l items /\
  txt = [36] ++ talker_name t ++ [71; 83; 86; 44] ++ a ++ [44] ++ b ++ [44] ++ c ++ List.concat items.
(** the sentences of one talker: the satellites in order, four per sentence *)
Definition gsv_group (t : Z) (ms : list meas) (l : list azel) (txts : list (list Z)) : Prop :=
  len txts = (len l + 3) / 4 /\ forall i txt, nth_error txts i = Some txt -> gsv_text t (len txts) (Z.of_nat i + 1) (len l) ms (sub l (4 * Z.of_nat i) 4) txt.
End Spec.
