(** Specification vocabulary for iXCOM (C39-C41): no code of /repo. *)
From Verif Require Import Base Bitstring.

(** product of polynomials over GF(2): the first factor as its coefficients, highest degree first *)
Definition pmul (q : list bool) (g : Z) : Z := fold_left (fun a b => Z.lxor (2 * a) (if b : bool then g else 0)) q 0.
(** x^16 + x^12 + x^5 + 1 *)
Definition CCITT : Z := 2 ^ 16 + 2 ^ 12 + 2 ^ 5 + 1.
(** [r] is the remainder of m(x) x^16 divided by the generator: m x^16 = q g + r with deg r < 16 *)
Definition is_crc16 (l : list Z) (r : Z) : Prop :=
  0 <= r < 2 ^ 16 /\ exists q, Z.lxor (pmul q CCITT) r = val_be (bits_of_bytes l) * 2 ^ 16.

(** the length field of a message: bytes 4 and 5, little endian *)
Definition length_field (l : list Z) : Z := znth 0 4 l + 256 * znth 0 5 l.
Definition is_frame (f : list Z) : Prop := znth 0 0 f = 0x7E /\ len f = length_field f /\ 16 < len f < 4096.
(** [parsed l fs r]: the byte string [l] is a sequence of frames [fs] and of bytes other than 0x7E between them, followed by
    the incomplete frame [r] (possibly empty) *)
Inductive parsed : list Z -> list (list Z) -> list Z -> Prop :=
| p_nil : parsed [] [] []
| p_skip b l fs r : b <> 0x7E -> parsed l fs r -> parsed (b :: l) fs r
| p_frame f l fs r : is_frame f -> parsed l fs r -> parsed (f ++ l) (f :: fs) r
| p_wait l : l <> [] -> znth 0 0 l = 0x7E -> (16 <= len l -> 16 < length_field l < 4096 /\ len l < length_field l) -> parsed l [] l.
