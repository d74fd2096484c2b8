(** C76: what an SBP ephemeris must satisfy to be representable in the RTCM message, and what must arrive.  Reals, SI units. *)
From Coq Require Import Reals.
From Flocq Require Import Core IEEE754.Binary IEEE754.Bits.
From Verif Require Import Base Double_model RtcmEph_model SbpEph_model.
Open Scope Z_scope.

(** ** units: 2^-k, 2^-k semicircles (in radians), 2^-k km (in metres), 0.1 ns *)
Definition unit2 (k : Z) : R := bpow radix2 (- k).
Definition semic (k : Z) : R := (bpow radix2 (- k) * PI)%R.
Definition kilo (k : Z) : R := (bpow radix2 (- k) * 1000)%R.
Definition tenth_ns : R := (/ 10000000000)%R.
Definition dv (x : dbl) : R := B2R 53 1024 x.
Definition fv (x : binary32) : R := B2R 24 128 x.

(** the value fits an n-bit two's complement, unsigned, or sign-magnitude field with unit u *)
Definition sfit (n : Z) (u v : R) : Prop := (IZR (- 2 ^ (n - 1)) <= v / u <= IZR (2 ^ (n - 1) - 1))%R.
Definition ufit (n : Z) (u v : R) : Prop := (IZR 0 <= v / u <= IZR (2 ^ n - 1))%R.
Definition mfit (n : Z) (u v : R) : Prop := (IZR (- (2 ^ (n - 1) - 1)) <= v / u <= IZR (2 ^ (n - 1) - 1))%R.
Definition dsfit n u (x : dbl) := is_finite 53 1024 x = true /\ sfit n u (dv x).
Definition dufit n u (x : dbl) := is_finite 53 1024 x = true /\ ufit n u (dv x).
Definition dmfit n u (x : dbl) := is_finite 53 1024 x = true /\ mfit n u (dv x).
Definition fsfit n u (x : binary32) := is_finite 24 128 x = true /\ sfit n u (fv x).
Definition fmfit n u (x : binary32) := is_finite 24 128 x = true /\ mfit n u (fv x).

(** the orbit: C_rs, C_rc in units of 2^-kc m, the other harmonics in 2^-kh rad, all in w bits *)
Definition orbit_fits (w kc kh : Z) (s : skeph) : Prop :=
  fsfit w (unit2 kc) (s_crs s) /\ fsfit w (unit2 kc) (s_crc s) /\
  fsfit w (unit2 kh) (s_cuc s) /\ fsfit w (unit2 kh) (s_cus s) /\ fsfit w (unit2 kh) (s_cic s) /\ fsfit w (unit2 kh) (s_cis s) /\
  dsfit 16 (semic 43) (s_dn s) /\ dsfit 32 (semic 31) (s_m0 s) /\ dufit 32 (unit2 33) (s_ecc s) /\ dufit 32 (unit2 19) (s_sqrta s) /\
  dsfit 32 (semic 31) (s_omega0 s) /\ dsfit 24 (semic 43) (s_omegadot s) /\ dsfit 32 (semic 31) (s_w s) /\ dsfit 32 (semic 31) (s_inc s) /\ dsfit 14 (semic 43) (s_inc_dot s).
Definition clock_fits (w0 k0 w1 k1 w2 k2 : Z) (s : skeph) : Prop :=
  dsfit w0 (unit2 k0) (s_af0 s) /\ dsfit w1 (unit2 k1) (s_af1 s) /\ fsfit w2 (unit2 k2) (s_af2 s).

(** the value x' received for x differs by at most half a unit (0.501, for the rounding errors of the conversions) *)
Definition half_unit (u v' v : R) : Prop := (Rabs (v' - v) <= 501 / 1000 * u)%R.
Definition dhalf u (x' x : dbl) := is_finite 53 1024 x' = true /\ half_unit u (dv x') (dv x).
Definition fhalf u (x' x : binary32) := is_finite 24 128 x' = true /\ half_unit u (fv x') (fv x).
Definition orbit_received (kc kh : Z) (s' s : skeph) : Prop :=
  fhalf (unit2 kc) (s_crs s') (s_crs s) /\ fhalf (unit2 kc) (s_crc s') (s_crc s) /\
  fhalf (unit2 kh) (s_cuc s') (s_cuc s) /\ fhalf (unit2 kh) (s_cus s') (s_cus s) /\ fhalf (unit2 kh) (s_cic s') (s_cic s) /\ fhalf (unit2 kh) (s_cis s') (s_cis s) /\
  dhalf (semic 43) (s_dn s') (s_dn s) /\ dhalf (semic 31) (s_m0 s') (s_m0 s) /\ dhalf (unit2 33) (s_ecc s') (s_ecc s) /\ dhalf (unit2 19) (s_sqrta s') (s_sqrta s) /\
  dhalf (semic 31) (s_omega0 s') (s_omega0 s) /\ dhalf (semic 43) (s_omegadot s') (s_omegadot s) /\ dhalf (semic 31) (s_w s') (s_w s) /\ dhalf (semic 31) (s_inc s') (s_inc s) /\
  dhalf (semic 43) (s_inc_dot s') (s_inc_dot s).
Definition clock_received (k0 k1 k2 : Z) (s' s : skeph) : Prop :=
  dhalf (unit2 k0) (s_af0 s') (s_af0 s) /\ dhalf (unit2 k1) (s_af1 s') (s_af1 s) /\ fhalf (unit2 k2) (s_af2 s') (s_af2 s).

(** ** what each message has room for *)
Definition gps_representable (s : skeph) : Prop :=
  orbit_fits 16 5 29 s /\ clock_fits 22 31 16 43 8 55 s /\ fsfit 8 (unit2 31) (s_tgd0 s) /\
  0 <= s_sat s < 64 /\ 0 <= s_health s < 64 /\ 0 <= s_iode s < 256 /\ 0 <= s_iodc s < 1024 /\
  0 <= s_toe s < 604800 /\ s_toe s mod 16 = 0 /\ 0 <= s_toc s < 604800 /\ s_toc s mod 16 = 0.
(** Galileo: one issue of data, health below the (mis-decoded) top bit, week below the rollover in 2078 *)
Definition gal_representable (health : Z) (s : skeph) : Prop :=
  orbit_fits 16 5 29 s /\ clock_fits 31 34 21 46 6 59 s /\ fsfit 10 (unit2 32) (s_tgd0 s) /\ fsfit 10 (unit2 32) (s_tgd1 s) /\
  0 <= s_sat s < 64 /\ 0 <= s_health s < health /\ 0 <= s_iodc s < 1024 /\ 1024 <= s_toe_wn s < 5120 /\
  0 <= s_toe s < 604800 /\ s_toe s mod 60 = 0 /\ 0 <= s_toc s < 604800 /\ s_toc s mod 60 = 0.
(** BeiDou: not a geostationary satellite; reference times on the 8-second grid of BeiDou time, not the first 14 seconds of a GPS week nor the start of a BeiDou week *)
Definition bds_representable (s : skeph) : Prop :=
  orbit_fits 18 6 31 s /\ clock_fits 24 33 22 50 11 66 s /\ fsfit 10 tenth_ns (s_tgd0 s) /\ fsfit 10 tenth_ns (s_tgd1 s) /\
  6 <= s_sat s < 64 /\ 0 <= s_health s < 2 /\ 0 <= s_iode s < 32 /\ 0 <= s_iodc s < 32 /\ 1356 <= s_toc_wn s < 1356 + 8192 /\ s_toe_wn s = s_toc_wn s /\
  14 < s_toe s < 604800 /\ (s_toe s - 14) mod 8 = 0 /\ 14 < s_toc s < 604800 /\ (s_toc s - 14) mod 8 = 0.
(** GLONASS: sign-magnitude fields; the reference time is a whole quarter hour (not midnight) of the Moscow day *)
Definition glo_representable (leap : Z) (s : sgeph) : Prop :=
  fmfit 11 (unit2 40) (sg_gamma s) /\ fmfit 22 (unit2 30) (sg_tau s) /\ fmfit 5 (unit2 30) (sg_d_tau s) /\
  dmfit 27 (kilo 11) (sg_pos0 s) /\ dmfit 27 (kilo 11) (sg_pos1 s) /\ dmfit 27 (kilo 11) (sg_pos2 s) /\
  dmfit 24 (kilo 20) (sg_vel0 s) /\ dmfit 24 (kilo 20) (sg_vel1 s) /\ dmfit 24 (kilo 20) (sg_vel2 s) /\
  fmfit 5 (kilo 30) (sg_acc0 s) /\ fmfit 5 (kilo 30) (sg_acc1 s) /\ fmfit 5 (kilo 30) (sg_acc2 s) /\
  1 <= sg_sat s < 64 /\ 0 <= sg_health s < 2 /\ 1 <= sg_fcn s <= 32 /\ 0 <= sg_toe s < 604800 /\
  (sg_toe s + 10800 - leap) mod 900 = 0 /\ (sg_toe s + 10800 - leap) mod 86400 <> 0.
Definition glo_received (s' s : sgeph) : Prop :=
  fhalf (unit2 40) (sg_gamma s') (sg_gamma s) /\ fhalf (unit2 30) (sg_tau s') (sg_tau s) /\ fhalf (unit2 30) (sg_d_tau s') (sg_d_tau s) /\
  dhalf (kilo 11) (sg_pos0 s') (sg_pos0 s) /\ dhalf (kilo 11) (sg_pos1 s') (sg_pos1 s) /\ dhalf (kilo 11) (sg_pos2 s') (sg_pos2 s) /\
  dhalf (kilo 20) (sg_vel0 s') (sg_vel0 s) /\ dhalf (kilo 20) (sg_vel1 s') (sg_vel1 s) /\ dhalf (kilo 20) (sg_vel2 s') (sg_vel2 s) /\
  fhalf (kilo 30) (sg_acc0 s') (sg_acc0 s) /\ fhalf (kilo 30) (sg_acc1 s') (sg_acc1 s) /\ fhalf (kilo 30) (sg_acc2 s') (sg_acc2 s).
