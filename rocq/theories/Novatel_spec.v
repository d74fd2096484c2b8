(** Specification vocabulary for NovAtel input (C42, C43): no code of /repo.  Only the result types nhdr, nbody, rcrec of the
    model are mentioned. *)
From Verif Require Import Base Bitstring Bytestream_model Ixcom_spec Novatel_model.

(** *** CRC-32 *)
(** x^32 + x^26 + x^23 + x^22 + x^16 + x^12 + x^11 + x^10 + x^8 + x^7 + x^5 + x^4 + x^2 + x + 1 *)
Definition CRC32_POLY : Z := 2^32 + 2^26 + 2^23 + 2^22 + 2^16 + 2^12 + 2^11 + 2^10 + 2^8 + 2^7 + 2^5 + 2^4 + 2^2 + 2 + 1.
(** the bits of a byte string in transmission order: bytes in order, least significant bit first *)
Definition bits_lsb_first (l : list Z) : list bool := flat_map (fun b => rev (bits_be 8 b)) l.
(** [r] is the CRC: its 32 bits, least significant first, are the coefficients (highest degree first) of the remainder of
    m(x) x^32 divided by the generator *)
Definition is_crc32 (l : list Z) (r : Z) : Prop :=
  0 <= r < 2 ^ 32 /\ exists q, Z.lxor (pmul q CRC32_POLY) (val_be (rev (bits_be 32 r))) = val_be (bits_lsb_first l) * 2 ^ 32.

(** *** frames: OEM7 manual, regular and short binary header *)
Definition twos (n : nat) (v : Z) : Prop := - 2 ^ (8 * Z.of_nat n - 1) <= v < 2 ^ (8 * Z.of_nat n - 1).
(** [nov_frame f h body]: [f] is a complete frame; its header says [h]; [body] is between the header and the CRC *)
Inductive nov_frame (f : list Z) (h : nhdr) (body : list Z) : Prop :=
| regular_frame (ty port i0 i1 i2 i3 : Z) (tail : list Z) (crc : Z) :
    f = [0xAA; 0x44; 0x12; 28] ++ le 2 (nh_id h) ++ [ty; port] ++ le 2 (nh_len h) ++ [i0; i1; i2; i3] ++ le 2 (nh_week h)
        ++ le 4 (nh_ms h) ++ tail ++ body ++ le 4 crc ->
    len tail = 8 -> nh_len h = len body -> len body < 2 ^ 16 ->
    ufits 2 (nh_id h) -> ufits 2 (nh_week h) -> twos 4 (nh_ms h) -> bytes f ->
    is_crc32 (take (len f - 4) f) crc -> nov_frame f h body
| short_frame (crc : Z) :
    f = [0xAA; 0x44; 0x13; nh_len h] ++ le 2 (nh_id h) ++ le 2 (nh_week h) ++ le 4 (nh_ms h) ++ body ++ le 4 crc ->
    nh_len h = len body -> len body < 2 ^ 8 ->
    ufits 2 (nh_id h) -> ufits 2 (nh_week h) -> twos 4 (nh_ms h) -> bytes f ->
    is_crc32 (take (len f - 4) f) crc -> nov_frame f h body.

(** *** message bodies *)
(** a field: bytes, and how the value is stored: unsigned (also the bits of a float), signed, or the negative of it, signed *)
Inductive sign := Pos | Sgn | Neg.
Definition nov_field (w : nat * sign) (v : Z) (enc : list Z) : Prop :=
  match snd w with
  | Pos => ufits (fst w) v /\ enc = le (fst w) v
  | Sgn => twos (fst w) v /\ enc = le (fst w) v
  | Neg => twos (fst w) (- v) /\ v <> 2 ^ (8 * Z.of_nat (fst w) - 1) /\ enc = le (fst w) (- v)
  end.
Definition p1 := (1%nat, Pos). Definition p2 := (2%nat, Pos). Definition p4 := (4%nat, Pos). Definition p8 := (8%nat, Pos).
Definition s4 := (4%nat, Sgn). Definition n4 := (4%nat, Neg).
(** the fixed-size messages with their field widths *)
Inductive nov_message : Z -> list (nat * sign) -> Prop :=
| m_gpsephem : nov_message 7 ([p4; p8] ++ repeat p4 5 ++ repeat p8 16 ++ [p4] ++ repeat p8 5 ++ [p4; p8; p8])
| m_bestpos : nov_message 42 ([p4; p4] ++ repeat p8 3 ++ repeat p4 5 ++ repeat p1 4 ++ [p4; p4] ++ repeat p1 8)
| m_bestvel : nov_message 99 (repeat p4 4 ++ repeat p8 3 ++ [p4])
| m_insatt : nov_message 263 ([p4] ++ repeat p8 4 ++ [p4])
| m_gloephemeris : nov_message 723 ([p2; p2; p1; p1; p2; p4; p4; p2; p2; p4; p4] ++ repeat p8 12 ++ repeat p4 5)
| m_rawimusx : nov_message 1462 [p1; p1; p2; p8; p4; s4; n4; s4; s4; n4; s4].
(** [n] bits of the little-endian number [v] from bit [o] up *)
Definition bitfield (v o n : Z) : Z := v / 2 ^ o mod 2 ^ n.
Definition twos_of (n v : Z) : Z := if v <? 2 ^ (n - 1) then v else v - 2 ^ n.
(** a RANGECMP record: 24 bytes, a 192-bit little-endian number *)
Definition range_record (enc : list Z) (r : rcrec) : Prop :=
  len enc = 24 /\
  let v := le_val enc in
  r = mk_rcrec (bitfield v 0 32) (twos_of 28 (bitfield v 32 28)) (bitfield v 60 36) (twos_of 32 (bitfield v 96 32))
        (bitfield v 128 4) (bitfield v 132 4) (bitfield v 136 8) (bitfield v 144 21) (bitfield v 165 5) (bitfield v 170 6)
        (bitfield v 176 16).
(** what a callback is given for a body; at most 63 RANGECMP records *)
Inductive body_meaning (id : Z) (body : list Z) : nbody -> Prop :=
| bm_fixed ws vs encs : nov_message id ws -> body = concat encs -> length vs = length ws -> length encs = length ws ->
    (forall i w, nth_error ws i = Some w -> exists v e, nth_error vs i = Some v /\ nth_error encs i = Some e /\ nov_field w v e) ->
    body_meaning id body (NFields vs)
| bm_range n encs rs : id = 140 -> ufits 4 n -> body = le 4 n ++ concat encs -> Z.of_nat (length encs) = n ->
    Forall (fun e => len e = 24) encs -> Forall2 range_record (take 63 encs) rs ->
    body_meaning id body (NRange rs).
Definition known_id (id : Z) : Prop := id = 140 \/ exists ws, nov_message id ws.

(** *** streams *)
(** the frames occur in this order, not overlapping, in [l] *)
Inductive occur_in_order : list (list Z) -> list Z -> Prop :=
| oio_nil l : occur_in_order [] l
| oio_cons g f fs l : occur_in_order fs l -> occur_in_order (f :: fs) (g ++ f ++ l).
(** reading a byte string from the left: a frame of at most 4096 bytes, or a byte where none starts *)
Inductive scanned : list Z -> list (list Z * nhdr * list Z) -> Prop :=
| sc_nil : scanned [] []
| sc_frame f h b l fs : nov_frame f h b -> len f <= 4096 -> scanned l fs -> scanned (f ++ l) ((f, h, b) :: fs)
| sc_skip x l fs : (forall f h b r, x :: l = f ++ r -> nov_frame f h b -> 4096 < len f) -> scanned l fs -> scanned (x :: l) fs.
(** the calls a sequence of frames produces: unknown messages produce none *)
Inductive calls_of : list (list Z * nhdr * list Z) -> list (nhdr * nbody) -> Prop :=
| co_nil : calls_of [] []
| co_known f h b fs m cs : body_meaning (nh_id h) b m -> calls_of fs cs -> calls_of ((f, h, b) :: fs) ((h, m) :: cs)
| co_unknown f h b fs cs : ~ known_id (nh_id h) -> calls_of fs cs -> calls_of ((f, h, b) :: fs) cs.
(** a reader that hands out a byte string, as much as it is asked for until the end, then nothing *)
Definition full_reader : reader (list Z) := fun n rest => (Some (take n rest), drop n rest).
(** any reader: at most what it was asked for, bytes *)
Definition sound_reader {S} (rd : reader S) : Prop :=
  forall n s l s', rd n s = (Some l, s') -> len l <= n /\ bytes l.
