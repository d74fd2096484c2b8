(** What it means that an ephemeris is assembled from one data set, in terms of the received messages only.
    Words are the 32-bit words of UBX-RXM-SFRBX; fields are written as (word / 2^a) mod 2^n. *)
From Verif Require Import Base Bitstring Subframes_model.

Definition word (ws : list Z) (k : Z) : Z := znth 0 k ws.
(** the [n]-bit field whose least significant bit is bit [a] of word [k] *)
Definition field_of (ws : list Z) (k a n : Z) : Z := (word ws k / 2 ^ a) mod 2 ^ n.

(** u-blox constellation numbers: GPS 0, Galileo 2, BeiDou 3, GLONASS 6 *)
(** [is_part g j ws]: the words are part number [j] (1-based) of the broadcast ephemeris of constellation [g] *)
Definition is_part (g j : Z) (ws : list Z) : Prop :=
  if g =? 0 then len ws = 10 /\ field_of ws 0 22 8 = 0x8b /\ field_of ws 1 8 3 = j /\ 1 <= j <= 3
  else if g =? 3 then len ws = 10 /\ field_of ws 0 12 3 = j /\ 1 <= j <= 3
  else if g =? 2 then 9 <= len ws /\ field_of ws 0 30 1 = 0 /\ field_of ws 0 31 1 = 0 /\ field_of ws 4 31 1 = 1 /\
                      field_of ws 0 24 6 = j /\ 1 <= j <= 5
  else g = 6 /\ len ws = 4 /\ field_of ws 0 31 1 = 0 /\ field_of ws 0 27 4 = j /\ 1 <= j <= 5.
(** number of parts of one data set *)
Definition parts_needed (g : Z) : Z := if (g =? 0) || (g =? 3) then 3 else 5.

(** the parts, in order, belong to one issue of data, as far as the broadcast tells:
    GPS: the 8 low bits of IODC and both IODE agree; BeiDou: seconds of week valid and in sequence;
    Galileo: the four IODnav agree (page 5 carries none); GLONASS: same superframe and frame *)
Definition same_issue (g : Z) (parts : list (list Z)) : Prop :=
  let p k := znth [] k parts in
  if g =? 0 then field_of (p 0) 7 22 8 = field_of (p 1) 2 22 8 /\ field_of (p 1) 2 22 8 = field_of (p 2) 9 22 8
  else if g =? 3 then
    let sow ws := field_of ws 0 4 8 * 4096 + field_of ws 1 18 12 in
    sow (p 1) = sow (p 0) + 6 /\ sow (p 2) = sow (p 0) + 12 /\ sow (p 2) < 604800
  else if g =? 2 then forall k, 0 <= k < 4 -> field_of (p k) 0 14 10 = field_of (p 0) 0 14 10
  else forall k, 0 <= k < 5 -> word (p k) 3 / 2 ^ 16 = word (p 0) 3 / 2 ^ 16.

(** bits of 32-bit words, most significant first *)
Definition word_bits (ws : list Z) : list bool := flat_map (bits_be 32) ws.
(** content of a Galileo page: 112 bits of the even half after the even/odd and type bits, 16 of the odd half *)
Definition gal_page_bits (ws : list Z) : list bool :=
  sub (word_bits (take 4 ws)) 2 112 ++ sub (bits_be 32 (word ws 4)) 2 16.

(** the satellite an output is about *)
Definition out_sat (o : eph_out) : Z * Z :=
  match o with
  | EphGps p _ _ => (0, p) | EphBds p _ => (3, p) | EphGal p _ => (2, p) | EphGlo p _ _ => (6, p) | SbasRaw p _ _ _ => (1, p)
  end.
(** transmission time of a GPS subframe 1: the HOW counts 6-second units and announces the next subframe *)
Definition gps_time_ok (sf1 : list Z) (tow : Z) : Prop :=
  let next := field_of sf1 1 13 17 in 0 <= next < 100800 /\ 0 <= tow < 604800 /\ (tow + 6) mod 604800 = next * 6.
(** the output conveys exactly these parts *)
Definition conveys (o : eph_out) (fcn : Z) (parts : list (list Z)) : Prop :=
  match o with
  | EphGps _ tow frames => frames = map (drop 2) parts /\ gps_time_ok (znth [] 0 parts) tow
  | EphBds _ frames => frames = parts
  | EphGal _ pages => map bits_of_bytes pages = map gal_page_bits parts
  | EphGlo _ f strings =>
      f = (fcn + 1) mod 256 /\ length strings = length parts /\
      (* bit i of the string, counted from the least significant bit of its first byte, is bit 84 - i of the words *)
      forall k i, 0 <= k < len parts -> 0 <= i < 85 ->
        Z.testbit (znth 0 (i / 8) (znth [] k strings)) (i mod 8) = znth false (84 - i) (word_bits (znth [] k parts))
  | SbasRaw _ _ _ _ => False
  end.

Definition from_sat (g p : Z) (e : sfevent) : Prop := ev_gnss e = g /\ ev_prn e = p.
(** [e] is the most recent part [j] of satellite (g,p) in [h] *)
Definition latest (g p j : Z) (h : list sfevent) (e : sfevent) : Prop :=
  exists a b, h = a ++ e :: b /\ from_sat g p e /\ is_part g j (ev_words e) /\
    forall x, In x b -> from_sat g p x -> ~ is_part g j (ev_words x).

(** the messages of one satellite; the outputs about one satellite *)
Definition of_sat (g p : Z) (e : sfevent) : bool := (ev_gnss e =? g) && (ev_prn e =? p).
Definition about (g p : Z) (o : eph_out) : bool := (fst (out_sat o) =? g) && (snd (out_sat o) =? p).

(** ** SBAS: a 250-bit message is intact when, read as a polynomial over GF(2), it is divisible by the CRC-24Q
    generator x^24 + x^23 + x^18 + x^17 + x^14 + x^11 + x^10 + x^7 + x^6 + x^5 + x^4 + x^3 + x + 1 *)
Definition gf2_step (r : Z) (b : bool) : Z :=
  let s := 2 * r + Z.b2z b in if 2 ^ 24 <=? s then Z.lxor s 0x1864CFB else s.
Definition gf2_rem (l : list bool) : Z := fold_left gf2_step l 0.
Definition sbas_intact (ws : list Z) : Prop :=
  let bits := take 250 (word_bits (take 8 ws)) in
  (val_be (take 8 bits) = 0x53 \/ val_be (take 8 bits) = 0x9a \/ val_be (take 8 bits) = 0xc6) /\ gf2_rem bits = 0.
