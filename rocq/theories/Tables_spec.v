(** Independent reading of the tables of the interface documents. *)
From Coq Require Import Reals.
From Flocq Require Import Core IEEE754.Binary IEEE754.Bits.
From Verif Require Import Base.
Open Scope Z_scope.

(** Galileo OS SIS ICD, SISA index values, in centimetres: 0..0.5 m in steps of 1 cm, ..1 m in 2 cm, ..2 m in 4 cm, ..6 m in 16 cm *)
Definition sisa_cm (i : Z) : Z :=
  if i <=? 50 then i else if i <=? 75 then 50 + 2 * (i - 50) else if i <=? 100 then 100 + 4 * (i - 75) else 200 + 16 * (i - 100).
(** the resolution around a value, in metres *)
Definition sisa_resolution (u : R) : R :=
  if Rle_bool u (1/2) then 0.01 else if Rle_bool u 1 then 0.02 else if Rle_bool u 2 then 0.04 else 0.16.
(** IS-GPS-200 20.3.3.3.1.3 and BDS ICD 5.2.4: nominal URA in decimetres per index; 15 means "no accuracy prediction" and has the
    value SBP uses for it *)
Definition ura_dm (no_prediction : Z) (n : Z) : option Z :=
  nth_error [20; 28; 40; 57; 80; 113; 160; 320; 640; 1280; 2560; 5120; 10240; 20480; 40960; no_prediction] (Z.to_nat n).
(** GLONASS ICD table 4.4 (F_T), in decimetres *)
Definition ft_dm (n : Z) : option Z :=
  nth_error [10; 20; 25; 40; 50; 70; 100; 120; 140; 160; 320; 640; 1280; 2560; 5120; 61440] (Z.to_nat n).
(** IS-GPS-200 table 20-XII: IODC values and curve fit interval in hours when the fit interval flag is 1; any other: 6 hours *)
Definition long_fit : list (Z * Z * Z) :=
  [(240, 247, 8); (248, 255, 14); (496, 496, 14); (497, 503, 26); (1021, 1023, 26); (504, 510, 50); (511, 511, 74); (752, 756, 74); (757, 757, 98)].
(** what a C library's log2f must satisfy: finite on positive numbers, right with respect to every power of two, and visibly below the
    next power of two away from it.  (Every monotone implementation that is exact on powers of two and has an error below 0.1.) *)
Definition log2_ok (log2f : binary32 -> binary32) : Prop :=
  forall x, is_finite 24 128 x = true -> (0 < B2R 24 128 x)%R ->
    is_finite 24 128 (log2f x) = true /\
    forall k, ((bpow radix2 k <= B2R 24 128 x)%R -> (IZR k <= B2R 24 128 (log2f x))%R) /\
              ((B2R 24 128 x <= bpow radix2 k)%R -> (B2R 24 128 (log2f x) <= IZR k)%R) /\
              ((4 * B2R 24 128 x <= 3 * bpow radix2 k)%R -> (B2R 24 128 (log2f x) <= IZR k - 1 / 4)%R).
(** a usable tolerance of the comparisons *)
Definition eps_ok (e : binary64) : Prop := is_finite 53 1024 e = true /\ (0 < B2R 53 1024 e <= /10)%R.
