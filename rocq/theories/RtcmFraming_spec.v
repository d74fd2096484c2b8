(** What an RTCM3 transport frame is, independently of the scanner. *)
From Verif Require Import Base Crc.

(** 0xD3, 6 reserved bits and 10 length bits in two bytes, payload of that length (non-empty), 3 bytes of
    CRC-24Q (big endian) over all preceding bytes. *)
Definition valid_frame (f : list Z) : Prop :=
  exists b1 b2 payload c2 c1 c0,
    f = 0xD3 :: b1 :: b2 :: payload ++ [c2; c1; c0] /\
    bytes f /\
    len payload = (256 * b1 + b2) mod 1024 /\
    0 < len payload /\
    crc24q (0xD3 :: b1 :: b2 :: payload) = 65536 * c2 + 256 * c1 + c0.

(** [f] occurs in stream [s] at byte offset [p]. *)
Definition occurs_at (s : list Z) (p : Z) (f : list Z) : Prop :=
  0 <= p /\ p + len f <= len s /\ sub s p (len f) = f.

(** frames at increasing, non-overlapping offsets, all starting at or after [p] *)
Fixpoint ordered_from (p : Z) (tr : list (Z * list Z)) : Prop :=
  match tr with
  | [] => True
  | (q, f) :: r => p <= q /\ ordered_from (q + len f) r
  end.

(** a read of at least one byte and at most RTCM3_BUFFER_SIZE = 3067 bytes *)
Definition good_read (c : list Z) : Prop := 1 <= len c <= 3067 /\ bytes c.

(** streams made of the frames [fs] separated and surrounded by runs of bytes without 0xD3 *)
Inductive garbage_separated : list (list Z) -> list Z -> Prop :=
| gs_nil g : ~ In 0xD3 g -> bytes g -> garbage_separated [] g
| gs_cons g f fs s : ~ In 0xD3 g -> bytes g -> valid_frame f -> garbage_separated fs s ->
    garbage_separated (f :: fs) (g ++ f ++ s).
