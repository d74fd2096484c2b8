(** Accuracy and fit-interval tables: c/gnss_converters/src/rtcm3_utils.c:707-959 and
    c/gnss_converters/src/rtcm3_sbp_ephemeris.c:22-101.
    float arithmetic is IEEE single precision, round to nearest even, without contraction (FLT_EVAL_METHOD 0).
    Not in /repo, hence parameters: [eps] = FLOAT_EQUALITY_EPS (libswiftnav), a double; [log2f] (C library).
    g_bds_ura_table (libswiftnav) is taken from the BDS ICD, as the comment in the source says. *)
From Flocq Require Import Core IEEE754.Binary IEEE754.Bits.
From Verif Require Import Base Double_model UbxObs_model Esf_model Ixcom_model.
Open Scope Z_scope.

Definition fadd : binary32 -> binary32 -> binary32 := b32_plus mode_NE.
Definition fsub : binary32 -> binary32 -> binary32 := b32_minus mode_NE.
Definition fleb (x y : binary32) : bool := match Bcompare 24 128 x y with Some Lt | Some Eq => true | _ => false end.
Definition fabs (x : binary32) : binary32 :=
  match x with
  | B754_zero _ _ _ => B754_zero 24 128 false
  | B754_infinity _ _ _ => B754_infinity 24 128 false
  | B754_nan _ _ _ _ _ => x
  | B754_finite _ _ s m e H => B754_finite 24 128 false m e H
  end.
(** (uint8_t)d: None when the value does not fit *)
Definition to_u8 (x : dbl) : option Z :=
  match dtrunc x with Some z => if (0 <=? z) && (z <? 256) then Some z else None | None => None end.

(** the chain of "fabsf(uri - c) < FLOAT_EQUALITY_EPS" tests followed by "(uint8_t)(log2f(uri) + 2.0)" *)
Fixpoint uri_chain (eps : dbl) (log2f : binary32 -> binary32) (tbl : list (Z * Z)) (uri : binary32) : option Z :=
  match tbl with
  | [] => to_u8 (dadd (dofflt (log2f uri)) (dofZ 2))
  | (c, i) :: r => if dltb (dofflt (fabs (fsub uri (fofbits c)))) eps then Some i else uri_chain eps log2f r uri
  end.
(** the constants of convert_gps_uri_to_ura: rtcm3_utils.c:735-763 *)
Definition gps_chain : list (Z * Z) :=
  [(0x40000000, 0); (0x40333333, 1); (0x40800000, 2); (0x40b66666, 3); (0x41000000, 4); (0x4134cccd, 5); (0x41800000, 6); (0x45c00000, 15)].
(** convert_glo_uri_to_ura: rtcm3_utils.c:765-810 *)
Definition glo_chain : list (Z * Z) :=
  [(0x3f800000, 0); (0x40000000, 1); (0x40200000, 2); (0x40800000, 3); (0x40a00000, 4); (0x40e00000, 5); (0x41200000, 6); (0x41400000, 7);
   (0x41600000, 8); (0x41800000, 9); (0x42000000, 10); (0x42800000, 11); (0x43000000, 12); (0x43800000, 13); (0x44000000, 14); (0x45c00000, 15)].
(** convert_bds_uri_to_ura: rtcm3_utils.c:812-857; the last constant is 8196.0f in the source *)
Definition bds_chain : list (Z * Z) :=
  [(0x40000000, 0); (0x40333333, 1); (0x40800000, 2); (0x40b66666, 3); (0x41000000, 4); (0x4134cccd, 5); (0x41800000, 6); (0x42000000, 7);
   (0x42800000, 8); (0x43000000, 9); (0x43800000, 10); (0x44000000, 11); (0x44800000, 12); (0x45000000, 13); (0x45800000, 14); (0x46001000, 15)].
Definition gps_uri_to_ura eps l := uri_chain eps l gps_chain.
Definition glo_uri_to_ura eps l := uri_chain eps l glo_chain.
Definition bds_uri_to_ura eps l := uri_chain eps l bds_chain.
(** convert_ura_to_uri: rtcm3_utils.c:707-733; powf(2, n) for an integer n is exact *)
Definition ura_to_uri (ura : Z) : binary32 :=
  if ura =? 1 then fofbits 0x40333333
  else if ura =? 3 then fofbits 0x40b66666
  else if ura =? 5 then fofbits 0x4134cccd
  else if ura <=? 6 then fofZ (2 ^ (1 + ura / 2)) 0
  else if ura <? 15 then fofZ (2 ^ (ura - 2)) 0
  else if ura =? 15 then fofZ 6144 0
  else fofZ (-1) 0.
(** convert_glo_ft_to_meters: rtcm3_sbp_ephemeris.c:22-64 *)
Definition glo_ft_to_meters (ft : Z) : binary32 :=
  match ft with
  | 0 => fofZ 1 0 | 1 => fofZ 2 0 | 2 => fofZ 5 (-1) | 3 => fofZ 4 0 | 4 => fofZ 5 0 | 5 => fofZ 7 0 | 6 => fofZ 10 0 | 7 => fofZ 12 0
  | 8 => fofZ 14 0 | 9 => fofZ 16 0 | 10 => fofZ 32 0 | 11 => fofZ 64 0 | 12 => fofZ 128 0 | 13 => fofZ 256 0 | 14 => fofZ 512 0
  | 15 => fofZ 6144 0 | _ => fofZ (-1) 0
  end.
(** convert_bds_ura_to_meters: rtcm3_sbp_ephemeris.c:66-81 *)
Definition bds_ura_to_meters (ura : Z) : binary32 :=
  match ura with
  | 0 => fofZ 2 0 | 1 => fofbits 0x40333333 | 2 => fofZ 4 0 | 3 => fofbits 0x40b66666 | 4 => fofZ 8 0 | 5 => fofbits 0x4134cccd
  | 6 => fofZ 16 0 | 7 => fofZ 32 0 | 8 => fofZ 64 0 | 9 => fofZ 128 0 | 10 => fofZ 256 0 | 11 => fofZ 512 0 | 12 => fofZ 1024 0
  | 13 => fofZ 2048 0 | 14 => fofZ 4096 0 | 15 => fofZ 8192 0 | _ => fofZ (-1) 0
  end.

(** the SISA constants: rtcm3_utils.h:31-51 *)
Definition res1 := fofbits 0x3c23d70a. (* 0.01f *)
Definition res2 := fofbits 0x3ca3d70a. (* 0.02f *)
Definition res3 := fofbits 0x3d23d70a. (* 0.04f *)
Definition res4 := fofbits 0x3e23d70a. (* 0.16f *)
Definition f05 := fofbits 0x3f000000.
Definition f1 := fofZ 1 0. Definition f2 := fofZ 2 0. Definition f6 := fofZ 6 0. Definition f0 := fofZ 0 0.
(** convert_sisa_to_meters: rtcm3_utils.c:917-936 *)
Definition sisa_to_meters (i : Z) : binary32 :=
  if i <=? 50 then fadd f0 (fmul (fofZ i 0) res1)
  else if i <=? 75 then fadd f05 (fmul (fofZ (i - 50) 0) res2)
  else if i <=? 100 then fadd f1 (fmul (fofZ (i - 75) 0) res3)
  else if i <=? 125 then fadd f2 (fmul (fofZ (i - 100) 0) res4)
  else fofZ (-1) 0.
(** convert_meters_to_sisa: rtcm3_utils.c:938-959; the sum with 0.5 is in double precision, the sum with the step in single *)
Definition d05 := dscale 1 (-1).
Definition meters_to_sisa (u : binary32) : option Z :=
  if fltb u f0 then Some 255
  else if fleb u f05 then to_u8 (dadd (dofflt (fdiv (fsub u f0) res1)) d05)
  else if fleb u f1 then to_u8 (dadd (dofflt (fadd (fdiv (fsub u f05) res2) (fofZ 50 0))) d05)
  else if fleb u f2 then to_u8 (dadd (dofflt (fadd (fdiv (fsub u f1) res3) (fofZ 75 0))) d05)
  else if fleb u f6 then to_u8 (dadd (dofflt (fadd (fdiv (fsub u f2) res4) (fofZ 100 0))) d05)
  else Some 255.

(** rtcm3_decode_fit_interval_gps: rtcm3_utils.c:859-889 *)
Definition decode_fit_interval_gps (flag iodc : Z) : Z :=
  let between a b := (a <=? iodc) && (iodc <=? b) in
  (if flag =? 0 then 4
   else if between 240 247 then 8
   else if between 248 255 || (iodc =? 496) then 14
   else if between 497 503 || between 1021 1023 then 26
   else if between 504 510 then 50
   else if (iodc =? 511) || between 752 756 then 74
   else if iodc =? 757 then 98
   else 6) * 60 * 60.
(** rtcm3_encode_fit_interval_gps: rtcm3_utils.c:891-902 *)
Definition encode_fit_interval_gps (s : Z) : Z := if s =? 4 * 60 * 60 then 0 else 1.
(** rtcm3_encode_fit_interval_glo: rtcm3_utils.c:904-916 *)
Definition encode_fit_interval_glo (s : Z) : Z :=
  if s / 60 =? 40 then 1 else if s / 60 =? 55 then 2 else 0.
(** rtcm3_decode_fit_interval_glo: rtcm3_sbp_ephemeris.c:83-101 *)
Definition decode_fit_interval_glo (p1 : Z) : Z :=
  match p1 with 0 => 70 * 60 | 1 => 40 * 60 | 2 => 55 * 60 | _ => 70 * 60 end.
