(** What the libswiftnav constants C_1_2Pk must satisfy, and the values the SBP ephemeris messages must carry. *)
From Coq Require Import Reals.
From Flocq Require Import Core IEEE754.Binary IEEE754.Bits.
From Verif Require Import Base Double_model Double_proofs RtcmEph_model SbpEph_model.
Open Scope Z_scope.

(** C_1_2Pk is a double somewhere around 2^-k: enough for the round trips *)
Definition consts_ok (c : Z -> dbl) : Prop := forall k, 5 <= k <= 66 -> dfin (c k) = true /\ (bpow radix2 (- k - 1) <= dR (c k) <= bpow radix2 (1 - k))%R.
(** C_1_2Pk is 2^-k *)
Definition consts_exact (c : Z -> dbl) : Prop := forall k, 5 <= k <= 66 -> dfin (c k) = true /\ dR (c k) = bpow radix2 (- k).

(** an ephemeris with the two GPS fields SBP has no room for set to the values the converter uses: "P code on L2", "L2 P data on" *)
Definition with_l2_defaults (m : keph) : keph :=
  mkkeph (e_sat m) (e_wn m) (e_toe m) (e_ura m) (e_fit m) (e_health m) (e_tgd0 m) (e_tgd1 m) (e_crc m) (e_crs m) (e_cuc m) (e_cus m) (e_cic m) (e_cis m)
    (e_dn m) (e_m0 m) (e_ecc m) (e_sqrta m) (e_omega0 m) (e_omegadot m) (e_w m) (e_inc m) (e_inc_dot m) (e_af0 m) (e_af1 m) (e_af2 m) (e_toc m) (e_iodc m)
    (e_iode m) 1 false.

(** ** values: the field's integer times the scale factor of the interface documents, in SI units *)
Definition scaled (n k : Z) : R := (IZR n * bpow radix2 (- k))%R.
Definition dexact (x : dbl) (v : R) : Prop := is_finite 53 1024 x = true /\ B2R 53 1024 x = v.
Definition fexact (x : binary32) (v : R) : Prop := is_finite 24 128 x = true /\ B2R 24 128 x = v.
(** an angle (rate) given in semicircles, to within one part in 2^52 *)
Definition radians (x : dbl) (semicircles : R) : Prop :=
  is_finite 53 1024 x = true /\ (Rabs (B2R 53 1024 x - semicircles * PI) <= / 4503599627370496 * Rabs (semicircles * PI))%R.
(** single precision, to within one part in 2^23 *)
Definition fclose (x : binary32) (v : R) : Prop := is_finite 24 128 x = true /\ (Rabs (B2R 24 128 x - v) <= / 8388608 * Rabs v)%R.
(** the orbit: amplitudes C_rs, C_rc have unit 2^-kc m, the other harmonics 2^-kh rad *)
Definition orbit_values (kc kh : Z) (m : keph) (s : skeph) : Prop :=
  fexact (s_crs s) (scaled (e_crs m) kc) /\ fexact (s_crc s) (scaled (e_crc m) kc) /\
  fexact (s_cuc s) (scaled (e_cuc m) kh) /\ fexact (s_cus s) (scaled (e_cus m) kh) /\ fexact (s_cic s) (scaled (e_cic m) kh) /\ fexact (s_cis s) (scaled (e_cis m) kh) /\
  radians (s_dn s) (scaled (e_dn m) 43) /\ radians (s_m0 s) (scaled (e_m0 m) 31) /\ dexact (s_ecc s) (scaled (e_ecc m) 33) /\ dexact (s_sqrta s) (scaled (e_sqrta m) 19) /\
  radians (s_omega0 s) (scaled (e_omega0 m) 31) /\ radians (s_omegadot s) (scaled (e_omegadot m) 43) /\ radians (s_w s) (scaled (e_w m) 31) /\
  radians (s_inc s) (scaled (e_inc m) 31) /\ radians (s_inc_dot s) (scaled (e_inc_dot m) 43).
(** the clock polynomial *)
Definition clock_values (k0 k1 k2 : Z) (m : keph) (s : skeph) : Prop :=
  dexact (s_af0 s) (scaled (e_af0 m) k0) /\ dexact (s_af1 s) (scaled (e_af1 m) k1) /\ fexact (s_af2 s) (scaled (e_af2 m) k2).
