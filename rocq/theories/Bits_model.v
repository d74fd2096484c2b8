(** Byte-exact model of c/librtcm/src/bits.c. Positions and lengths are Z; a buffer is a
    list of bytes.  Accesses beyond the end of the list are outside the model (the C
    functions take no buffer length): theorems carry the hypothesis pos+len <= 8*len buff. *)
From Verif Require Import Base Bitstring.

(** one term of the loop: (buff[i / 8] >> (7 - i % 8)) & 1u, bits.c:31, 50 *)
Definition buf_bit (buff : list Z) (i : Z) : Z :=
  Z.land (Z.shiftr (znth 0 (i / 8) buff) (7 - i mod 8)) 1.

(** the loop of rtcm_getbitu / rtcm_getbitul, bits.c:30-32, 49-51, over [n] more bits from [i];
    [w] is the width of the accumulator (32 or 64) *)
Fixpoint getbit_loop (w : Z) (n : nat) (buff : list Z) (i : Z) (bits : Z) : Z :=
  match n with
  | O => bits
  | S n => getbit_loop w n buff (i + 1) ((Z.shiftl bits 1 + buf_bit buff i) mod 2 ^ w)
  end.
(** rtcm_getbitu, bits.c:27-35 *)
Definition getbitu (buff : list Z) (pos ln : Z) : Z := getbit_loop 32 (Z.to_nat ln) buff pos 0.
(** rtcm_getbitul, bits.c:46-54 *)
Definition getbitul (buff : list Z) (pos ln : Z) : Z := getbit_loop 64 (Z.to_nat ln) buff pos 0.

(** two's complement reinterpretation of a w-bit pattern: the C casts (int32_t)/(int64_t) *)
Definition to_signed (w x : Z) : Z := let y := x mod 2 ^ w in if y <? 2 ^ (w - 1) then y else y - 2 ^ w.

(** rtcm_getbits, bits.c:67-75: bits ^ m with m = (int32_t)(1u << (len-1)), minus m (mod 2^32) *)
Definition getbits (buff : list Z) (pos ln : Z) : Z :=
  let bits := to_signed 32 (getbitu buff pos ln) in
  let m := to_signed 32 (Z.shiftl 1 (ln - 1)) in
  to_signed 32 (Z.lxor bits m - m).
(** rtcm_getbitsl, bits.c:88-96 *)
Definition getbitsl (buff : list Z) (pos ln : Z) : Z :=
  let bits := to_signed 64 (getbitul buff pos ln) in
  let m := to_signed 64 (Z.shiftl 1 (ln - 1)) in
  to_signed 64 (Z.lxor bits m - m).

(** one iteration of the store loop, bits.c:115-119, 141-145 (uint8_t store truncates to 8 bits) *)
Definition store_bit (buff : list Z) (i : Z) (b : bool) : list Z :=
  zupd (i / 8)
    (fun x => if b then Z.lor x (Z.shiftl 1 (7 - i mod 8)) mod 256
              else Z.land x (Z.lnot (Z.shiftl 1 (7 - i mod 8))) mod 256) buff.
(** the store loop, bits.c:114-120: [mask] is shifted right each iteration *)
Fixpoint setbit_loop (n : nat) (buff : list Z) (i mask data : Z) : list Z :=
  match n with
  | O => buff
  | S n => setbit_loop n (store_bit buff i (negb (Z.land data mask =? 0))) (i + 1) (Z.shiftr mask 1) data
  end.
(** rtcm_setbitu, bits.c:107-121: [data] is converted to uint32_t by the call *)
Definition setbitu (buff : list Z) (pos ln data : Z) : list Z :=
  if (ln <=? 0) || (32 <? ln) then buff
  else setbit_loop (Z.to_nat ln) buff pos (Z.shiftl 1 (ln - 1)) (data mod 2 ^ 32).
(** rtcm_setbitul, bits.c:132-146 *)
Definition setbitul (buff : list Z) (pos ln data : Z) : list Z :=
  if (ln <=? 0) || (64 <? ln) then buff
  else setbit_loop (Z.to_nat ln) buff pos (Z.shiftl 1 (ln - 1)) (data mod 2 ^ 64).
(** rtcm_setbits, bits.c:157-159; rtcm_setbitsl, bits.c:170-172 *)
Definition setbits (buff : list Z) (pos ln data : Z) : list Z := setbitu buff pos ln (data mod 2 ^ 32).
Definition setbitsl (buff : list Z) (pos ln data : Z) : list Z := setbitul buff pos ln (data mod 2 ^ 64).

(** rtcm_get_sign_magnitude_bit, bits.c:180-185 *)
Definition get_sign_magnitude_bit (buff : list Z) (pos ln : Z) : Z :=
  let value := to_signed 32 (getbitu buff (pos + 1) (ln - 1)) in
  if negb (getbitu buff pos 1 =? 0) then - value else value.
(** rtcm_set_sign_magnitude_bit, bits.c:193-199 *)
Definition set_sign_magnitude_bit (buff : list Z) (pos ln data : Z) : list Z :=
  setbitu (setbitu buff pos 1 (if data <? 0 then 1 else 0)) (pos + 1) (ln - 1)
          (if data <? 0 then - data else data).

(** A sequence "rtcm_setbit*(buff, bit, n, v); bit += n;" as used throughout
    c/librtcm/src/encode.c and eph_encode.c.  A field wider than 32 bits stands for rtcm_setbitul / rtcm_setbitsl,
    a narrower one for rtcm_setbitu / rtcm_setbits (which write the same bits). *)
Definition put_field (st : list Z * Z) (f : field) : list Z * Z :=
  let '(buff, bit) := st in let '(n, v) := f in
  ((if n <=? 32 then setbitu buff bit n v else setbitul buff bit n v), bit + n).
Definition put_fields (buff : list Z) (bit : Z) (fs : list field) : list Z * Z :=
  fold_left put_field fs (buff, bit).
(** "return (bit + 7) / 8" at the end of every encoder *)
Definition byte_len (bit : Z) : Z := (bit + 7) / 8.
