(** IEEE-754 double arithmetic used by the converters, computable, on top of Flocq's [binary64].
    Round-to-nearest-even is the mode of every operation (no code of /repo changes the rounding mode).
    The C library functions floor, round, rint and the C conversions from double to an integer type are defined exactly on
    mantissa and exponent; [None] is the non-finite case (for a conversion to an integer type: undefined behaviour). *)
From Coq Require Import ZArith Bool.
From Flocq Require Import Core IEEE754.Binary IEEE754.Bits.
From Verif Require Import Base.
Open Scope Z_scope.

Notation mode_NE := BinarySingleNaN.mode_NE.
Definition dbl : Type := binary64.
(** value with the given bit pattern (type punning / memcpy of 8 little endian bytes in libubx's decoder) *)
Definition dofbits (b : Z) : dbl := b64_of_bits b.
(** float -> double: exact *)
Definition fofbits (b : Z) : binary32 := b32_of_bits b.
Definition dofZ (z : Z) : dbl := binary_normalize 53 1024 eq_refl eq_refl mode_NE z 0 false.
Definition dadd : dbl -> dbl -> dbl := b64_plus mode_NE.
Definition dsub : dbl -> dbl -> dbl := b64_minus mode_NE.
Definition dmul : dbl -> dbl -> dbl := b64_mult mode_NE.
Definition ddiv : dbl -> dbl -> dbl := b64_div mode_NE.
Definition dltb (x y : dbl) : bool := match Bcompare 53 1024 x y with Some Lt => true | _ => false end.
Definition dgtb (x y : dbl) : bool := dltb y x.
(** m * 2^e as a double (exact for the literals 2^-k and for 1.0 etc.) *)
Definition dscale (m e : Z) : dbl := binary_normalize 53 1024 eq_refl eq_refl mode_NE m e false.
(** conversion float to double (implicit in "(double)f") *)
Definition dofflt (f : binary32) : dbl :=
  match f with
  | B754_zero _ _ s => B754_zero 53 1024 s
  | B754_infinity _ _ s => B754_infinity 53 1024 s
  | B754_nan _ _ s _ _ => proj1_sig default_nan_pl64
  | B754_finite _ _ s m e _ => binary_normalize 53 1024 eq_refl eq_refl mode_NE (cond_Zopp s (Zpos m)) e s
  end.

(** integer parts of n * 2^e *)
Definition zfl (n e : Z) : Z := if 0 <=? e then n * 2 ^ e else n / 2 ^ (- e).
Definition ztr (n e : Z) : Z := if 0 <=? e then n * 2 ^ e else Z.quot n (2 ^ (- e)).
(** nearest, ties away from zero: C's round() *)
Definition zra (n e : Z) : Z := Z.sgn n * (if 0 <=? e then Z.abs n * 2 ^ e else (2 * Z.abs n + 2 ^ (- e)) / (2 * 2 ^ (- e))).
(** nearest, ties to even: C's rint(), lrint() in the default rounding mode *)
Definition zre (n e : Z) : Z :=
  if 0 <=? e then n * 2 ^ e
  else let d := 2 ^ (- e) in let q := n / d in let r := n mod d in
       if 2 * r <? d then q else if d <? 2 * r then q + 1 else if Z.even q then q else q + 1.

Definition dint (f : Z -> Z -> Z) (x : dbl) : option Z :=
  match x with
  | B754_zero _ _ _ => Some 0
  | B754_finite _ _ s m e _ => Some (f (cond_Zopp s (Zpos m)) e)
  | _ => None
  end.
Definition dfloor := dint zfl.
Definition dtrunc := dint ztr.
Definition dround := dint zra.
Definition drint := dint zre.
