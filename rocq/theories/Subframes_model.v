(** Assembly of broadcast ephemerides from UBX-RXM-SFRBX messages, and forwarding of SBAS messages.
    Models c/gnss_converters/src/ubx_ephemeris/{gps,bds,gal,glo}.c, src/ephemeris/sbas.c and
    handle_rxm_sfrbx (src/ubx_sbp.c:1237-1283).
    A per-satellite buffer (struct sat_data / gal_sat_data / glo_sat_data, include/gnss-converters/eph_sat_data.h)
    is modelled as a partial function from slot number to words: bit i of [vmask] set is [Some], clear is [None]
    (the words of a slot whose bit is clear are never used by the code: in gal.c the IODnav of such a slot is
    read, but only to clear the bit that is already clear).
    The orbit decoders of libswiftnav (decode_ephemeris, decode_bds_d1_ephemeris, decode_gal_ephemeris_safe,
    decode_glo_ephemeris) are external: the model emits the data handed to them; their verdicts are parameters. *)
From Verif Require Import Base Bits_model Crc RtcmMsm_model Signals_model.

Definition slots : Type := Z -> option (list Z).
Definition no_slots : slots := fun _ => None.
Definition put (s : slots) (i : Z) (v : option (list Z)) : slots := fun k => if k =? i then v else s k.
(** a word of a subframe *)
Definition wd (ws : list Z) (k : Z) : Z := znth 0 k ws.
(** (w >> a) & m *)
Definition fld (w a m : Z) : Z := Z.land (Z.shiftr w a) m.

(** what one call hands to the receiver of SBP messages: the inputs of the external orbit decoder *)
Inductive eph_out : Type :=
| EphGps (prn tow : Z) (frames : list (list Z))       (* frame_words, tot_tow_s: gps.c:121-135 *)
| EphBds (prn : Z) (frames : list (list Z))           (* fraid_words: bds.c:108-118 *)
| EphGal (prn : Z) (pages : list (list Z))            (* page[5][16]: gal.c:139-164 *)
| EphGlo (prn fcn : Z) (strings : list (list Z))      (* page[5], fcn + 1: glo.c:127-160 *)
| SbasRaw (prn tow mtype : Z) (data : list bool).     (* msg_sbas_raw: sbas.c:45-60 *)

(** gps.c:89-91,95-97: index of the subframe, None when the words are ignored *)
Definition gps_index (ws : list Z) : option Z :=
  if negb (len ws =? 10) then None
  else if negb (fld (wd ws 0) 22 0xFF =? 0x8b) then None
  else let i := fld (wd ws 1) 8 7 - 1 in
  if (i <? 0) || (2 <? i) then None else Some i.
(** gps.c:98-112: the three 8-bit issue-of-data values *)
Definition gps_iod (j : Z) (ws : list Z) : Z :=
  if j =? 0 then fld (wd ws 7) 22 0xFF else if j =? 1 then fld (wd ws 2) 22 0xFF else fld (wd ws 9) 22 0xFF.
(** gps.c:114-129: time of transmission from the HOW of subframe 1 *)
Definition gps_tow (sf1 : list Z) : option Z :=
  let t := fld (wd sf1 1) 13 0x1ffff in
  if t =? 0 then Some (604800 - 6) else if t <? 604800 / 6 then Some ((t - 1) * 6) else None.

Section Decoders.
(** verdict of decode_ephemeris (e.valid) on frame words, satellite and time; verdict of
    decode_gal_ephemeris_safe on the five pages; GNSS_CAPB_BDS_D2NAV bit of a satellite. All external. *)
Variable gps_valid : Z -> list (list Z) -> Z -> bool.
Variable gal_ok : list (list Z) -> bool.
Variable bds_d2 : Z -> bool.

(** gps_decode_subframe after the PRN check: gps.c:60-144 *)
Definition gps_step (prn : Z) (s : slots) (ws : list Z) : slots * option eph_out :=
  match gps_index ws with
  | None => (s, None)
  | Some i =>
    let s := put s i (Some ws) in
    match s 0, s 1, s 2 with
    | Some a, Some b, Some c =>
      if negb (gps_iod 0 a =? gps_iod 1 b) || negb (gps_iod 1 b =? gps_iod 2 c)
      then (put no_slots i (Some ws), None)                 (* invalidate_subframes(sat, 0x7 & ~(1U << sf_idx)) *)
      else match gps_tow a with
           | None => (put s 0 None, None)                   (* invalidate_subframes(sat, 0x1) *)
           | Some tow =>
             let frames := map (drop 2) [a; b; c] in
             if gps_valid prn frames tow then (no_slots, Some (EphGps prn tow frames)) else (no_slots, None)
           end
    | _, _, _ => (s, None)
    end
  end.

(** bds.c:77-88 *)
Definition bds_index (ws : list Z) : option Z :=
  if negb (len ws =? 10) then None
  else let i := fld (wd ws 0) 12 7 - 1 in
  if (i <? 0) || (2 <? i) then None else Some i.
(** bds.c:98-99 *)
Definition bds_sow (ws : list Z) : Z := Z.lor (Z.shiftl (fld (wd ws 0) 4 0xFF) 12) (fld (wd ws 1) 18 0xFFF).
(** bds_decode_subframe after the PRN check: bds.c:62-134; unsigned subtractions are modulo 2^32 *)
Definition bds_step (prn : Z) (s : slots) (ws : list Z) : slots * option eph_out :=
  if bds_d2 prn then (s, None)
  else match bds_index ws with
  | None => (s, None)
  | Some i =>
    let s := put s i (Some ws) in
    match s 0, s 1, s 2 with
    | Some a, Some b, Some c =>
      if 604800 <=? bds_sow a then (put s 0 None, None)
      else if 604800 <=? bds_sow b then (put s 1 None, None)
      else if 604800 <=? bds_sow c then (put s 2 None, None)
      else if negb (bds_sow a =? (bds_sow b - 6) mod 2 ^ 32) || negb (bds_sow b =? (bds_sow c - 6) mod 2 ^ 32)
      then (s, None)
      else (no_slots, Some (EphBds prn [a; b; c]))
    | _, _, _ => (s, None)
    end
  end.

(** gal.c:90-110: word type minus one, None when ignored *)
Definition gal_index (ws : list Z) : option Z :=
  if len ws <=? 8 then None
  else if fld (wd ws 0) 30 1 =? 1 then None
  else if negb (fld (wd ws 0) 31 1 =? 0) then None
  else if negb (fld (wd ws 4) 31 1 =? 1) then None
  else let wtype := fld (wd ws 0) 24 0x3F in
  if (wtype <? 1) || (5 <? wtype) then None else Some (wtype - 1).
(** gal.c:119-121 *)
Definition gal_iodnav (ws : list Z) : Z := fld (wd ws 0) 14 0x3FF.
(** bytes of a word, most significant first: gal.c:147-150, glo.c:134-138, sbas.c:92-97 *)
Definition be4 (w : Z) : list Z := [fld w 24 0xFF; fld w 16 0xFF; fld w 8 0xFF; Z.land w 0xFF].
(** bitshl (libswiftnav, external): shift a byte string left by [s] bits, 0 < s < 8, zeros shifted in *)
Fixpoint bitshl (s : Z) (p : list Z) : list Z :=
  match p with
  | [] => []
  | b :: r => Z.land (Z.lor (Z.shiftl b s) (Z.shiftr (hd 0 r) (8 - s))) 0xFF :: bitshl s r
  end.
(** gal.c:141-159: the 128-bit content of one page: 14 bytes of the even part, 2 of the odd part *)
Definition gal_content (ws : list Z) : list Z :=
  let p := bitshl 2 (be4 (wd ws 0) ++ be4 (wd ws 1) ++ be4 (wd ws 2) ++ be4 (wd ws 3)) in
  let tmp := fld (wd ws 4) 14 0xFFFF in
  take 14 p ++ [fld tmp 8 0xFF; Z.land tmp 0xFF].
(** gal.c:127-133: drop the pages 1-4 of another IODnav *)
Definition gal_keep (v : Z) (s : slots) : slots :=
  fun j => match s j with
           | Some w => if (j <? 4) && negb (gal_iodnav w =? v) then None else Some w
           | None => None
           end.
(** gal_decode_page after the PRN check: gal.c:82-185; eight words are stored *)
Definition gal_step (prn : Z) (s : slots) (ws : list Z) : slots * option eph_out :=
  match gal_index ws with
  | None => (s, None)
  | Some i =>
    let s := put s i (Some (take 8 ws)) in
    let s := if i =? 4 then s else gal_keep (gal_iodnav ws) s in
    match s 0, s 1, s 2, s 3, s 4 with
    | Some a, Some b, Some c, Some d, Some e =>
      let pages := map gal_content [a; b; c; d; e] in
      if gal_ok pages then (no_slots, Some (EphGal prn pages)) else (s, None)
    | _, _, _, _, _ => (s, None)
    end
  end.

(** glo.c:87-102: string number, None when ignored *)
Definition glo_number (ws : list Z) : option Z :=
  if negb (len ws =? 4) then None
  else if negb (fld (wd ws 0) 31 1 =? 0) then None
  else let n := fld (wd ws 0) 27 0xF in
  if 5 <? n then None else Some n.
(** glo.c:105: words[3] >> 16 *)
Definition glo_superframe (ws : list Z) : Z := Z.shiftr (wd ws 3) 16.
(** reverse_byte: glo.c:62-67 *)
Definition reverse_byte (b : Z) : Z :=
  let b := Z.land (Z.lor (Z.shiftr (Z.land b 0xF0) 4) (Z.shiftl (Z.land b 0x0F) 4)) 0xFF in
  let b := Z.land (Z.lor (Z.shiftr (Z.land b 0xCC) 2) (Z.shiftl (Z.land b 0x33) 2)) 0xFF in
  Z.land (Z.lor (Z.shiftr (Z.land b 0xAA) 1) (Z.shiftl (Z.land b 0x55) 1)) 0xFF.
(** one iteration of the bit swap, glo.c:143-147; getbitu/setbitu are libswiftnav's, transcribed as librtcm's *)
Definition glo_swap (p : list Z) (k : Z) : list Z :=
  let swap := getbitu p k 1 in
  let p := setbitu p k 1 (getbitu p (85 - 1 - k) 1) in
  setbitu p (85 - 1 - k) 1 swap.
(** glo.c:131-153: GLO_NAV_STR_WORDS = 3, GLO_NAV_STR_BITS = 85 (libswiftnav) *)
Definition glo_content (ws : list Z) : list Z :=
  let p := be4 (wd ws 0) ++ be4 (wd ws 1) ++ be4 (wd ws 2) in
  let p := fold_left glo_swap (map Z.of_nat (seq 0 (85 / 2 + 1))) p in
  map reverse_byte (take 11 p) ++ drop 11 p.
(** glo_decode_string after the PRN checks: glo.c:77-171.  None: string number 0, the shift count is 255 and
    the copy goes to string[-1].  [leap] is data->leap_second_known. *)
Definition glo_step (prn fcn : Z) (leap : bool) (st : Z * slots) (ws : list Z) : option ((Z * slots) * option eph_out) :=
  match glo_number ws with
  | None => Some (st, None)
  | Some n =>
    let (id, s) := st in
    let (id, s) := if negb (id =? glo_superframe ws) then (glo_superframe ws, no_slots) else (id, s) in
    if n =? 0 then None
    else
      let s := put s (n - 1) (Some ws) in
      match s 0, s 1, s 2, s 3, s 4 with
      | Some a, Some b, Some c, Some d, Some e =>
        if leap then Some ((id, no_slots), Some (EphGlo prn ((fcn + 1) mod 256) (map glo_content [a; b; c; d; e])))
        else Some ((id, s), None)
      | _, _, _, _, _ => Some ((id, s), None)
      end
  end.

(** crc24q_bits(0, buf, n, false) of libswiftnav (external): CRC-24Q fed bit by bit *)
Definition crc24q_feed (r : Z) (b : bool) : Z := crc24q_bit (Z.lxor r (if b then 2 ^ 23 else 0)).
Definition crc24q_bits (l : list bool) : Z := fold_left crc24q_feed l 0.
(** bits [pos, pos+n) of a byte string, most significant first (bitcopy, libswiftnav) *)
Definition buf_bits (p : list Z) (pos n : Z) : list bool :=
  map (fun i => negb (getbitu p (pos + Z.of_nat i) 1 =? 0)) (seq 0 (Z.to_nat n)).
(** sbas_decode_subframe after the PRN check: sbas.c:73-128 *)
Definition sbas_step (prn tow : Z) (ws : list Z) : option eph_out :=
  if negb (len ws =? 8) && negb (len ws =? 9) then None
  else
    let buffer := flat_map be4 (take 8 ws) in
    let preamble := znth 0 0 buffer in
    if negb (0x53 =? preamble) && negb (0x9a =? preamble) && negb (0xc6 =? preamble) then None
    else
      let mtype := fld (znth 0 1 buffer) 2 0x3F in
      let computed := crc24q_bits (buf_bits buffer 0 226) in
      let crc := getbitu buffer 226 24 in
      if negb (crc =? computed) then None
      else Some (SbasRaw prn tow mtype (buf_bits buffer 14 212)).
(** ubx_sbp.c:1258-1270: time of an SBAS message; last_tow_ms is u32; "tow_ms < 0.0" never holds *)
Definition sbas_tow (last_tow_ms : Z) : option Z :=
  if 604800000 <? last_tow_ms then None else Some ((last_tow_ms - 1120) mod 2 ^ 32).

(** one UBX-RXM-SFRBX message, with the values of leap_second_known and last_tow_ms at that moment *)
Record sfevent := mk_sfevent { ev_gnss : Z; ev_prn : Z; ev_fcn : Z; ev_words : list Z; ev_leap : bool; ev_tow : Z }.
(** struct eph_sat_data: the arrays as total functions of the PRN; accesses happen only for PRNs that passed
    the range check, so they are within the arrays *)
Record ephst := mk_ephst { es_gps : Z -> slots; es_bds : Z -> slots; es_gal : Z -> slots; es_glo : Z -> Z * slots }.
(** ubx_sbp_init: memset 0 *)
Definition ephst_init : ephst := mk_ephst (fun _ => no_slots) (fun _ => no_slots) (fun _ => no_slots) (fun _ => (0, no_slots)).
Definition setp {A} (m : Z -> A) (p : Z) (v : A) : Z -> A := fun q => if q =? p then v else m q.
Definition prn_in (c : cons) (prn : Z) : bool := (first_prn c <=? prn) && (prn <? first_prn c + prn_count c).

(** handle_rxm_sfrbx: ubx_sbp.c:1237-1283. None: undefined behaviour *)
Definition sfrbx_step (st : ephst) (e : sfevent) : option (ephst * option eph_out) :=
  let prn := ev_prn e in let ws := ev_words e in
  if ev_gnss e =? 0 then
    if negb (prn_in cGPS prn) then Some (st, None) else
    let (s, o) := gps_step prn (es_gps st prn) ws in
    Some (mk_ephst (setp (es_gps st) prn s) (es_bds st) (es_gal st) (es_glo st), o)
  else if ev_gnss e =? 3 then
    if negb (prn_in cBDS prn) then Some (st, None) else
    let (s, o) := bds_step prn (es_bds st prn) ws in
    Some (mk_ephst (es_gps st) (setp (es_bds st) prn s) (es_gal st) (es_glo st), o)
  else if ev_gnss e =? 2 then
    if negb (prn_in cGAL prn) then Some (st, None) else
    let (s, o) := gal_step prn (es_gal st prn) ws in
    Some (mk_ephst (es_gps st) (es_bds st) (setp (es_gal st) prn s) (es_glo st), o)
  else if ev_gnss e =? 6 then
    if (prn =? 255) || negb (prn_in cGLO prn) then Some (st, None) else
    match glo_step prn (ev_fcn e) (ev_leap e) (es_glo st prn) ws with
    | None => None
    | Some (s, o) => Some (mk_ephst (es_gps st) (es_bds st) (es_gal st) (setp (es_glo st) prn s), o)
    end
  else if ev_gnss e =? 1 then
    match sbas_tow (ev_tow e) with
    | None => Some (st, None)
    | Some tow => Some (st, if negb (prn_in cSBAS prn) then None else sbas_step prn tow ws)
    end
  else Some (st, None).

(** a history of messages; the outputs in order *)
Fixpoint sfrbx_run (st : ephst) (es : list sfevent) : option (ephst * list eph_out) :=
  match es with
  | [] => Some (st, [])
  | e :: r =>
    match sfrbx_step st e with
    | None => None
    | Some (st1, o) =>
      match sfrbx_run st1 r with
      | None => None
      | Some (st2, os) => Some (st2, match o with Some x => x :: os | None => os end)
      end
    end
  end.
End Decoders.
