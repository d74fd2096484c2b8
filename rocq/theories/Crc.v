(** Checksums, as mathematical (bit-serial) functions. *)
From Verif Require Import Base.

(** One CRC-24Q bit step: shift left, and reduce by 0x1864CFB when bit 24 appears. *)
Definition crc24q_bit (r : Z) : Z :=
  let s := Z.shiftl r 1 in
  if Z.testbit s 24 then Z.land (Z.lxor s 0x1864CFB) 0xFFFFFF else s.

(** One byte step: xor into the top byte, eight bit steps. *)
Definition crc24q_byte (r b : Z) : Z :=
  let r := Z.lxor r (Z.shiftl b 16) in
  Nat.iter 8 crc24q_bit r.

(** [crc24q(buf, len, crc)] of libswiftnav (external to /repo, submodule empty):
    CRC-24Q, polynomial 0x1864CFB, no reflection, no final xor.  Called at
    c/gnss_converters/src/rtcm3_sbp.c:1756 and c/gnss_converters_extra/src/sbp_rtcm3.c (encode_rtcm3_frame)
    with initial value 0.  Trusted transcription of the external routine's contract. *)
Definition crc24q (l : list Z) : Z := fold_left crc24q_byte l 0.
