(** C77: the payload layouts of RTCM 10403 (data field number, width), independent of the code: a field's value is read off the bits of
    the payload at the position the table gives it. *)
From Verif Require Import Base Bitstring Bits_model RtcmStation_model RtcmEph_model RtcmLegacy_model.
Open Scope Z_scope.

(** the [w] bits from bit [o] on (most significant first): unsigned, two's complement, sign and magnitude *)
Definition uat (bs : list bool) (o w : Z) : Z := val_be (take w (drop o bs)).
Definition s_at (bs : list bool) (o w : Z) : Z := let v := uat bs o w in if v <? 2 ^ (w - 1) then v else v - 2 ^ w.
Definition mat (bs : list bool) (o w : Z) : Z := if uat bs o 1 =? 1 then - uat bs (o + 1) (w - 1) else uat bs (o + 1) (w - 1).

(** a table of (DF number, width); reserved bits are DF001 *)
Definition table : Type := list (Z * Z).
Definition bits_of (t : table) : Z := fold_right (fun f a => snd f + a) 0 t.
Fixpoint place (t : table) (df o : Z) : Z * Z :=
  match t with [] => (o, 0) | (d, w) :: t => if d =? df then (o, w) else place t df (o + w) end.
Definition U (t : table) (bs : list bool) (df : Z) : Z := let '(o, w) := place t df 0 in uat bs o w.
Definition Sg (t : table) (bs : list bool) (df : Z) : Z := let '(o, w) := place t df 0 in s_at bs o w.
Definition M (t : table) (bs : list bool) (df : Z) : Z := let '(o, w) := place t df 0 in mat bs o w.

(** what a receiver that implements a message of [t] bits answers to the bits of a payload: too short to hold a message number, another message, too short for
    this one, or [r] *)
Definition verdict {A} (num t : Z) (bs : list bool) (r : res A) : res A :=
  if len bs <? 12 then Invalid else if negb (uat bs 0 12 =? num) then TypeMismatch else if len bs <? t then Invalid else r.

(** ** ephemerides *)
Definition t1019 : table := [(2, 12); (9, 6); (76, 10); (77, 4); (78, 2); (79, 14); (71, 8); (81, 16); (82, 8); (83, 16); (84, 22); (85, 10); (86, 16); (87, 16); (88, 32); (89, 16); (90, 32);
  (91, 16); (92, 32); (93, 16); (94, 16); (95, 32); (96, 16); (97, 32); (98, 16); (99, 32); (100, 24); (101, 8); (102, 6); (103, 1); (137, 1)].
Definition gps_of (bs : list bool) : keph := let u := U t1019 bs in let s := Sg t1019 bs in
  mkkeph (u 9) (u 76) (u 93) (u 77) (u 137) (u 102) (s 101) 0 (s 98) (s 86) (s 89) (s 91) (s 94) (s 96) (s 87) (s 88) (u 90) (u 92) (s 95) (s 100) (s 99) (s 97) (s 79)
    (s 84) (s 83) (s 82) (u 81) (u 85) (u 71) (u 78) (negb (u 103 =? 0)).
Definition t1044 : table := [(2, 12); (429, 4); (430, 16); (431, 8); (432, 16); (433, 22); (434, 8); (435, 16); (436, 16); (437, 32); (438, 16); (439, 32); (440, 16); (441, 32); (442, 16);
  (443, 16); (444, 32); (445, 16); (446, 32); (447, 16); (448, 32); (449, 24); (450, 14); (451, 2); (452, 10); (453, 4); (454, 6); (455, 8); (456, 10); (457, 1)].
Definition qzss_of (bs : list bool) : keph := let u := U t1044 bs in let s := Sg t1044 bs in
  mkkeph (u 429) (u 452) (u 442) (u 453) (u 457) (u 454) (s 455) 0 (s 447) (s 435) (s 438) (s 440) (s 443) (s 445) (s 436) (s 437) (u 439) (u 441) (s 444) (s 449) (s 448) (s 446) (s 450)
    (s 433) (s 432) (s 431) (u 430) (u 456) (u 434) 0 false.
Definition t1042 : table := [(2, 12); (488, 6); (489, 13); (490, 4); (491, 14); (492, 5); (493, 17); (494, 11); (495, 22); (496, 24); (497, 5); (498, 18); (499, 16); (500, 32); (501, 18); (502, 32);
  (503, 18); (504, 32); (505, 17); (506, 18); (507, 32); (508, 18); (509, 32); (510, 18); (511, 32); (512, 24); (513, 10); (514, 10); (515, 1)].
Definition bds_of (bs : list bool) : keph := let u := U t1042 bs in let s := Sg t1042 bs in
  mkkeph (u 488) (u 489) (u 505) (u 490) 0 (u 515) (s 513) (s 514) (s 510) (s 498) (s 501) (s 503) (s 506) (s 508) (s 499) (s 500) (u 502) (u 504) (s 507) (s 512) (s 511) (s 509) (s 491)
    (s 496) (s 495) (s 494) (u 493) (u 497) (u 492) 0 false.
Definition t_gal : table := [(2, 12); (252, 6); (289, 12); (290, 10); (291, 8); (292, 14); (293, 14); (294, 6); (295, 21); (296, 31); (297, 16); (298, 16); (299, 32); (300, 16); (301, 32); (302, 16);
  (303, 32); (304, 14); (305, 16); (306, 32); (307, 16); (308, 32); (309, 16); (310, 32); (311, 24); (312, 10)].
(** 1045: DF314 and DF315 (health, data validity; 3 bits) taken together as 314; 1046: DF316, 317, 287, 288 (6 bits) as 316 *)
Definition t1045 : table := t_gal ++ [(314, 3); (1, 7)].
Definition t1046 : table := t_gal ++ [(313, 10); (316, 6); (1, 2)].
(** [health]: the octet reported as health bits *)
Definition gal_of (t : table) (bs : list bool) (tgd1 health : Z) : keph := let u := U t bs in let s := Sg t bs in
  mkkeph (u 252) (u 289) (u 304) (u 291) 0 health (s 312) tgd1 (s 309) (s 297) (s 300) (s 302) (s 305) (s 307) (s 298) (s 299) (u 301) (u 303) (s 306) (s 311) (s 310) (s 308) (s 292)
    (s 296) (s 295) (s 294) (u 293) 0 (u 290) 0 false.
Definition t1020 : table := [(2, 12); (38, 6); (40, 5); (104, 1); (105, 1); (106, 2); (107, 12); (108, 1); (109, 1); (110, 7); (111, 24); (112, 27); (113, 5); (114, 24); (115, 27); (116, 5); (117, 24);
  (118, 27); (119, 5); (120, 1); (121, 11); (122, 2); (123, 1); (124, 22); (125, 5); (126, 5); (127, 1); (128, 4); (129, 11); (130, 2); (131, 1); (132, 11); (133, 32); (134, 5); (135, 22); (136, 1); (1, 7)].
(** unhealthy: MSB of B_n, or l_n of the third string, or (when additional data are present) l_n of the fifth string *)
Definition glo_of (bs : list bool) : geph := let u := U t1020 bs in let m := M t1020 bs in
  mkgeph (u 38) (u 128) (u 106) (Z.b2z ((u 108 =? 1) || (u 123 =? 1) || ((u 131 =? 1) && (u 136 =? 1)))) (m 121) (m 124) (m 125) (u 110)
    (m 112) (m 115) (m 118) (m 111) (m 114) (m 117) (m 113) (m 116) (m 119) (u 40).

(** ** station messages *)
Definition t1005 : table := [(2, 12); (3, 12); (21, 6); (22, 1); (23, 1); (24, 1); (141, 1); (25, 38); (142, 1); (1, 1); (26, 38); (364, 2); (27, 38)].
Definition t1006 : table := t1005 ++ [(28, 16)].
Definition m1005_of (t : table) (bs : list bool) : msg_1005 := let u := U t bs in let s := Sg t bs in
  mk1005 (u 3) (u 21) (u 22) (u 23) (u 24) (u 141) (s 25) (u 142) (s 26) (u 364) (s 27).
Definition t1230 : table := [(2, 12); (3, 12); (421, 1); (1, 3); (422, 4)].
(** DF422: one flag each for L1 C/A, L1 P, L2 C/A, L2 P; the biases present follow in this order, 16 bits each *)
Definition bias_at (bs : list bool) (k : Z) : Z :=
  let present j := uat bs (28 + j) 1 =? 1 in
  let before := len (filter present (map Z.of_nat (seq 0 (Z.to_nat k)))) in
  if present k then s_at bs (32 + 16 * before) 16 else 0.
Definition m1230_of (bs : list bool) : msg_1230 := let u := U t1230 bs in
  mk1230 (u 3) (u 421) (u 422) (bias_at bs 0) (bias_at bs 1) (bias_at bs 2) (bias_at bs 3).
Definition t1029 : table := [(2, 12); (3, 12); (51, 16); (52, 17); (138, 7); (139, 8)].
Definition bytes_at (bs : list bool) (o n : Z) : list Z := map (fun i => uat bs (o + 8 * Z.of_nat i) 8) (seq 0 (Z.to_nat n)).
Definition m1029_of (bs : list bool) : msg_1029 := let u := U t1029 bs in
  mk1029 (u 3) (u 51) (u 52) (u 138) (bytes_at bs 72 (u 139)).
(** strings: a count octet, then the characters *)
Definition count_at (bs : list bool) (o : Z) : Z := uat bs o 8.
Definition str_at (bs : list bool) (o : Z) : list Z := bytes_at bs (o + 8) (count_at bs o).
Definition after_str (bs : list bool) (o : Z) : Z := o + 8 + 8 * count_at bs o.

(** the layouts with strings: [o..] are the bits where each part starts *)
Definition m1007_of (bs : list bool) : msg_1007 := mk1007 (uat bs 12 12) (str_at bs 24) (uat bs (after_str bs 24) 8).
Definition end_1007 (bs : list bool) : Z := after_str bs 24 + 8.
Definition m1008_of (bs : list bool) : msg_1008 := mk1008 (m1007_of bs) (str_at bs (end_1007 bs)).
Definition end_1008 (bs : list bool) : Z := after_str bs (end_1007 bs).
Definition at_rcv (bs : list bool) : Z := end_1008 bs.
Definition at_fw (bs : list bool) : Z := after_str bs (at_rcv bs).
Definition at_ser (bs : list bool) : Z := after_str bs (at_fw bs).
Definition end_1033 (bs : list bool) : Z := after_str bs (at_ser bs).
Definition m1033_of (bs : list bool) : msg_1033 :=
  mk1033 (uat bs 12 12) (str_at bs 24) (uat bs (after_str bs 24) 8) (str_at bs (end_1007 bs)) (str_at bs (at_rcv bs)) (str_at bs (at_fw bs)) (str_at bs (at_ser bs)).
(** librtcm's strings have room for 32 characters (the standard allows 31) *)
Definition short (bs : list bool) (os : list Z) : bool := forallb (fun o => count_at bs o <=? 32) os.
(** Swift's 4062: reserved 0, SBP type, SBP sender, length, data *)
Definition m4062_of (bs : list bool) : msg_4062 := mk4062 (uat bs 16 16) (uat bs 32 16) (bytes_at bs 56 (uat bs 48 8)).

(** ** legacy observations: header, then the satellites one after the other *)
Definition t_hdr (s : sys) : table :=
  match s with GPS => [(2, 12); (3, 12); (4, 30); (5, 1); (6, 5); (7, 1); (8, 3)] | GLO => [(2, 12); (3, 12); (34, 27); (5, 1); (35, 5); (36, 1); (37, 3)] end.
Definition t_sat (k : kind) : table :=
  match k_sys k with
  | GPS => [(9, 6); (10, 1); (11, 24); (12, 20); (13, 7)] ++ (if k_ext k then [(14, 8); (15, 8)] else []) ++
           (if k_two k then [(16, 2); (17, 14); (18, 20); (19, 7)] ++ (if k_ext k then [(20, 8)] else []) else [])
  | GLO => [(38, 6); (39, 1); (40, 5); (41, 25); (42, 20); (43, 7)] ++ (if k_ext k then [(44, 7); (45, 8)] else []) ++
           (if k_two k then [(46, 2); (47, 14); (48, 20); (49, 7)] ++ (if k_ext k then [(50, 8)] else []) else [])
  end.
Definition Uo (t : table) (bs : list bool) (base df : Z) : Z := let '(o, w) := place t df base in uat bs o w.
Definition So (t : table) (bs : list bool) (base df : Z) : Z := let '(o, w) := place t df base in s_at bs o w.
Definition hdr_of (s : sys) (bs : list bool) : hdr := let u := U (t_hdr s) bs in
  match s with GPS => mkhdr (u 3) (u 4) (u 5) (u 7) (u 8) | GLO => mkhdr (u 3) (u 34) (u 5) (u 36) (u 37) end.
Definition n_sats (s : sys) (bs : list bool) : Z := U (t_hdr s) bs (match s with GPS => 6 | GLO => 35 end).
Definition tow_of (s : sys) (bs : list bool) : Z := U (t_hdr s) bs (match s with GPS => 4 | GLO => 34 end).
(** table 3.4-2: minimum continuous lock time in seconds *)
Definition lock_seconds (i : Z) : Z :=
  if i <? 24 then i else if i <? 48 then i * 2 - 24 else if i <? 72 then i * 4 - 120 else if i <? 96 then i * 8 - 408 else if i <? 120 then i * 16 - 1176
  else if i <? 127 then i * 32 - 3096 else 937.
(** one signal: [rng] its pseudorange in 0.0005 m, [has_rng] whether it is one, [base] the L1 pseudorange, [dphi] PhaseRange - L1 pseudorange in 0.0005 m (80000h:
    none), [hz] the carrier ([0]: unknown), [li] the lock indicator, [cn] C/N0 in 0.25 dB-Hz (0: none) *)
Definition signal_of (rng : Z) (has_rng : bool) (base dphi : Z) (hz : Z) (known : bool) (li cn : Z) : freq :=
  let phase := known && negb (dphi =? - 2 ^ 19) in
  mkfreq rng (hz * (base + dphi)) (lock_seconds li) cn has_rng phase phase (negb (cn =? 0)).
Definition blank : freq := mkfreq 0 0 0 0 false false false false.
(** DF011 or DF041 = 80000h: no L1 pseudorange *)
Definition l1_code (k : kind) (bs : list bool) (base : Z) : Z := Uo (t_sat k) bs base (match k_sys k with GPS => 11 | GLO => 41 end).
Definition sat_of (k : kind) (bs : list bool) (base : Z) : RtcmLegacy_model.sat := let u := Uo (t_sat k) bs base in let s := So (t_sat k) bs base in
  match k_sys k with
  | GPS =>
    let p := 40 * u 11 + 599584916 * (if k_ext k then u 14 else 0) in
    mksat (u 9) 0 (signal_of p (negb (u 11 =? 2 ^ 19)) p (s 12) 1575420000 true (u 13) (if k_ext k then u 15 else 0))
      (if k_two k then signal_of (p + 40 * s 17) (negb (s 17 =? - 2 ^ 13)) p (s 18) 1227600000 true (u 19) (if k_ext k then u 20 else 0) else blank)
  | GLO =>
    let p := 40 * u 41 + 1199169832 * (if k_ext k then u 44 else 0) in
    mksat (u 38) (u 40) (signal_of p (negb (u 41 =? 2 ^ 19)) p (s 42) (1602000000 + (u 40 - 7) * 562500) (u 40 <=? 20) (u 43) (if k_ext k then u 45 else 0))
      (if k_two k then signal_of (p + 40 * s 47) (negb (s 47 =? - 2 ^ 13)) p (s 48) (1246000000 + (u 40 - 7) * 437500) true (u 49) (if k_ext k then u 50 else 0) else blank)
  end.
Definition sats_of (k : kind) (bs : list bool) : list RtcmLegacy_model.sat :=
  map (fun i => sat_of k bs (bits_of (t_hdr (k_sys k)) + bits_of (t_sat k) * Z.of_nat i)) (seq 0 (Z.to_nat (n_sats (k_sys k) bs))).
(** every satellite of the message has an L1 pseudorange *)
Definition all_ranged (k : kind) (bs : list bool) : Prop :=
  forall i, 0 <= i < n_sats (k_sys k) bs -> l1_code k bs (bits_of (t_hdr (k_sys k)) + bits_of (t_sat k) * i) <> 2 ^ 19.
Definition day_or_week (s : sys) : Z := match s with GPS => 604800000 | GLO => 86400000 end.
