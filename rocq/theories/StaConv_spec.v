(** C66, C67: what the station messages must say.  Independent of the model's arithmetic: reals (metres), integers and texts. *)
From Coq Require Import Reals String Ascii.
From Flocq Require Import Core IEEE754.Binary IEEE754.Bits.
From Verif Require Import Base Double_model Double_proofs RtcmStation_model RtcmStation_spec Time_model StaConv_model.
Import ListNotations.
Open Scope Z_scope.
Open Scope list_scope.

(** the payload of an RTCM frame: between the 3-byte header and the 3-byte CRC *)
Definition payload_of (f : list Z) : list Z := sub f 3 (len f - 6).
(** the station number of an SBP sender: its lowest 12 bits.  The sender id a station number is given on reception: bits 7 and 12..15 set *)
Definition stn12 (sender : Z) : Z := sender mod 4096.
Definition back16 (stn : Z) : Z := 61440 + stn + (if Z.testbit stn 7 then 0 else 128).

(** ** C66 *)
Definition metres (x : dbl) : R := B2R 53 1024 x.
(** a coordinate that fits the 38-bit field: |x| <= 13743.895347 km *)
Definition coord_ok (x : dbl) : Prop := is_finite 53 1024 x = true /\ (Rabs (metres x) <= 13743895347 / 1000)%R.
(** n tenths of a millimetre represent x: to half a unit (plus 1/65536 for the rounding of 10000*x) *)
Definition tenths_mm (n : Z) (x : dbl) : Prop := (Rabs (IZR n - 10000 * metres x) <= / 2 + / 65536)%R.
(** the received coordinate is within 0.0501 mm *)
Definition within_half_tenth (x' x : dbl) : Prop := is_finite 53 1024 x' = true /\ (Rabs (metres x' - metres x) <= 501 / 10000000)%R.
(** the received coordinate is n / 10000 m, to 2 nm *)
Definition is_tenths_mm (x : dbl) (n : Z) : Prop := is_finite 53 1024 x = true /\ (Rabs (metres x - IZR n / 10000) <= 2 / 1000000000)%R.

(** the configuration in effect after a history of calls: the last antenna height that was not rejected (0 initially), the last descriptors,
    and whether anything was configured at all.  A height is accepted if it lies in 0 .. 6.5535 m (the double next to it) *)
Definition height_max : R := round radix2 (FLT_exp (-1074) 53) ZnearestE (65535 / 10000).
Definition height_ok (h : dbl) : bool := if Rle_dec 0 (metres h) then if Rle_dec (metres h) height_max then true else false else false.
Definition height_after (es : list oev) : dbl :=
  fold_left (fun cur e => match e with SetHeight h => if height_ok h then h else cur | _ => cur end) es (dofZ 0).
Definition descriptors_after (es : list oev) : list Z * list Z :=
  fold_left (fun cur e => match e with SetDescriptors a r => (a, r) | _ => cur end) es ([], []).
Definition configured (es : list oev) : bool :=
  existsb (fun e => match e with SetHeight h => height_ok h | SetDescriptors _ _ => true | _ => false end) es.
(** well-formed calls: antenna heights are not NaN (nor infinite), descriptors are C strings (no NUL inside), coordinates are in range, biases are 16-bit *)
Definition cstring (s : list Z) : Prop := Forall (fun c => 1 <= c <= 255) s.
Definition s16 (b : Z) : Prop := -32768 <= b <= 32767.
Definition ev_ok (e : oev) : Prop :=
  match e with
  | SetHeight h => is_finite 53 1024 h = true
  | SetDescriptors a r => cstring a /\ cstring r
  | BasePos s x y z => 0 <= s < 65536 /\ coord_ok x /\ coord_ok y /\ coord_ok z
  | GloBiases s m a b c d => 0 <= s < 65536 /\ 0 <= m < 256 /\ s16 a /\ s16 b /\ s16 c /\ s16 d
  | OtherMsg s => 0 <= s < 65536
  end.
(** what the 1006 message says: station, position, GPS + GLONASS + Galileo, physical reference station, single oscillator, height *)
Definition says_1006 (m : msg_1006) (sender : Z) (x y z h : dbl) : Prop :=
  let b := m6_1005 m in
  stn_id b = stn12 sender /\ itrf b = 0 /\ gps_ind b = 1 /\ glo_ind b = 1 /\ gal_ind b = 1 /\ ref_stn_ind b = 0 /\ osc_ind b = 1 /\ quart_cycle_ind b = 0 /\
  tenths_mm (arp_x b) x /\ tenths_mm (arp_y b) y /\ tenths_mm (arp_z b) z /\ tenths_mm (ant_height m) h.
(** 1008 and 1033: antenna and receiver descriptors, cut to 31 characters; everything else blank *)
Definition says_1008 (m : msg_1008) (sender : Z) (ant : list Z) : Prop := m = mk1008 (mk1007 (stn12 sender) (take 31 ant) 0) [].
Definition says_1033 (m : msg_1033) (sender : Z) (ant rcv : list Z) : Prop := m = mk1033 (stn12 sender) (take 31 ant) 0 [] (take 31 rcv) [] [].

(** ** C67 *)
(** bit 3: L1 C/A, bit 2: L1 P, bit 1: L2 C/A, bit 0: L2 P *)
Definition announced (mask bit b : Z) : Z := if Z.testbit mask bit then b else 0.
(** [name] occurs in [s] *)
Definition contains (s name : list Z) : Prop := exists a b, s = a ++ name ++ b.
(** the bias table by receiver type: names, announced signals, biases in centimetres *)
Definition spec_row : Type := list string * Z * (Z * Z * Z * Z).
Definition spec_rows : list spec_row := [
  (["Geo++ GNSMART (GLO=ASH)"], 9, (-1470, 0, 0, -1620));
  (["Geo++ GNSMART (GLO=HEM)"], 9, (-30, 0, 0, 350));
  (["Geo++ GNSMART (GLO=JAV)"], 9, (-150, 0, 0, -810));
  (["Geo++ GNSMART (GLO=JPS)"], 9, (-370, 0, 0, 70));
  (["Geo++ GNSMART (GLO=LEI)"; "Geo++ GNSMART (GLO=NOV)"], 9, (-7070, 0, 0, -6630));
  (["Geo++ GNSMART (GLO=NAV)"], 9, (40, 0, 0, 210));
  (["Geo++ GNSMART (GLO=NVR)"], 9, (11670, 0, 0, 18700));
  (["Geo++ GNSMART (GLO=SEP)"], 9, (0, 0, 0, 0));
  (["Geo++ GNSMART (GLO=SOK)"], 9, (-7070, 0, 0, -6630));
  (["Geo++ GNSMART (GLO=TPS)"], 9, (-256, 0, 0, 374));
  (["Geo++ GNSMART (GLO=TRM)"], 9, (1880, 0, 0, 2320));
  (["TRIMBLE"; "ASHTECH"], 15, (1906, 1906, 1906, 1906));
  (["LEICA"; "NOV"; "GEOMAX"], 15, (-7194, -7194, -7194, -7194));
  (["SEPT"], 15, (0, 0, 0, 0));
  (["TPS"], 9, (0, 0, 0, 0));
  (["JAVAD"], 9, (-150, 0, 0, -810));
  (["NAVCOM"], 9, (40, 0, 0, 210));
  (["HEMI"], 9, (-20, 0, 0, 340))]%string.
Definition named (s : list Z) (r : spec_row) : Prop := exists n, In n (fst (fst r)) /\ contains s (txt n).
(** the guess for a receiver called [s]: the first row of the table one of whose names occurs in [s]; nothing if there is none.
    SBP biases are in units of 2 cm *)
Definition guess (s : list Z) (mask a b c d : Z) : Prop :=
  (exists before r after, spec_rows = before ++ r :: after /\ Forall (fun r' => ~ named s r') before /\ named s r /\
     r = (fst (fst r), mask, (2 * a, 2 * b, 2 * c, 2 * d))) \/
  (Forall (fun r => ~ named s r) spec_rows /\ mask = 0 /\ a = 0 /\ b = 0 /\ c = 0 /\ d = 0).
(** when the last readable 1230 arrived (None: never); payloads that arrive before the time is known are not looked at *)
Definition is_1230 (p : list Z) : bool :=
  (2 <=? len p) && (frame_type p =? 1230) && match Bitstream_model.run_dec decode_1230 p with Ok _ => true | _ => false end.
Definition last_1230 (h : list (option gtime * list Z)) : option gtime :=
  fold_left (fun cur e => match fst e with Some t => if is_1230 (snd e) then Some t else cur | None => cur end) h None.
(** milliseconds since the start of GPS time *)
Definition abs_ms (t : gtime) : Z := wn t * 604800000 + tow t.
Definition valid_time (t : gtime) : Prop := 0 <= wn t /\ 0 <= tow t < 604800000.
