(** Lemmas about the UTC time of the NMEA sentences. *)
From Coq Require Import Reals Lra.
From Flocq Require Import Core.
From Verif Require Import Base Double_model Double_proofs Esf_proofs NmeaText_model NmeaText_proofs NmeaTime_model NmeaTime_spec.

Ltac bpv := unfold bpow; cbn [Z.pow_pos Pos.iter radix_val radix2]; cbn.

Lemma d1em9_spec : dfin d1em9 = true /\ (Rabs (dR d1em9 - 1 / 1000000000) <= bpow radix2 (-83))%R.
Proof.
  destruct (dofZ_exact 1 ltac:(lia)) as [F1 R1]. destruct (dofZ_exact 1000000000 ltac:(lia)) as [F9 R9].
  assert (B : (Rabs (1 / 1000000000) < bpow radix2 (-29))%R) by (bpv; rewrite Rabs_pos_eq by lra; lra).
  destruct (ddiv_spec (dofZ 1) (dofZ 1000000000) F1) as [F R].
  - rewrite R9. lra.
  - rewrite R1, R9. apply Rle_trans with (bpow radix2 (-29)); [apply Rlt_le; exact B|apply bpow_le; lia].
  - unfold d1em9. rewrite R, R1, R9. split; [exact F|]. apply (rnd_err _ (-29)); [lia|exact B].
Qed.

Lemma round_cs_spec ns : 0 <= ns < 2 ^ 32 -> exists z, round_cs ns = Some z /\ 0 <= z < 430 /\ Z.abs (10000000 * z - ns) <= 5000000.
Proof.
  intros N. assert (NR : (0 <= IZR ns <= 4294967296)%R) by (split; apply IZR_le; lia).
  destruct (dofZ_exact 100 ltac:(lia)) as [FH RH]. destruct (dofZ_exact ns ltac:(lia)) as [FN RN].
  destruct d1em9_spec as [FD RD].
  assert (P1 : dfin (dmul (dofZ 100) (dofZ ns)) = true /\ dR (dmul (dofZ 100) (dofZ ns)) = IZR (100 * ns)).
  { destruct (dmul_spec (dofZ 100) (dofZ ns) FH FN) as [F R].
    - rewrite RH, RN, <- mult_IZR. apply Rle_trans with (bpow radix2 53); [|apply bpow_le; lia]. rewrite <- (pow_bpow 53) by lia. rewrite <- abs_IZR. apply IZR_le. lia.
    - split; [exact F|]. rewrite R, RH, RN, <- mult_IZR. apply rnd_id. apply int_format. lia. }
  destruct P1 as [F1 R1]. set (a := dmul (dofZ 100) (dofZ ns)) in *.
  set (d := dR d1em9) in *. set (x := (IZR (100 * ns))%R) in *.
  assert (XR : (0 <= x <= 429496729600)%R) by (unfold x; split; apply IZR_le; lia).
  assert (B83 : bpow radix2 (-83) = (/ 9671406556917033397649408)%R) by (bpv; lra).
  assert (DD : (Rabs (x * d - x / 1000000000) <= / 16777216 / 1000000)%R).
  { replace (x * d - x / 1000000000)%R with (x * (d - 1 / 1000000000))%R by (unfold Rdiv; ring). rewrite Rabs_mult. rewrite (Rabs_pos_eq x) by lra.
    apply Rle_trans with (429496729600 * bpow radix2 (-83))%R; [|rewrite B83; lra]. apply Rmult_le_compat; [lra|apply Rabs_pos|lra|exact RD]. }
  assert (XE : (x / 1000000000 = IZR ns / 10000000)%R) by (unfold x; rewrite mult_IZR; field).
  apply Rabs_le_inv in DD. rewrite XE in DD.
  assert (BX : (Rabs (x * d) < bpow radix2 9)%R).
  { change (bpow radix2 9) with 512%R. apply Rabs_def1; lra. }
  destruct (dmul_spec a d1em9 F1 FD) as [F R].
  - rewrite R1. fold x d. apply Rle_trans with (bpow radix2 9); [apply Rlt_le; exact BX|apply bpow_le; lia].
  - rewrite R1 in R. fold x d in R. pose proof (rnd_err (x * d) 9 ltac:(lia) BX) as E. rewrite <- R in E. change (9 - 54) with (-45) in E.
    assert (B45 : bpow radix2 (-45) = (/ 35184372088832)%R) by (bpv; lra). rewrite B45 in E. apply Rabs_le_inv in E.
    unfold round_cs. fold a. apply dint_fin with (f := zra) in F. destruct F as (z & F). change (dint zra) with dround in F.
    rewrite F. pose proof (dround_close _ _ F) as C. apply Rabs_le_inv in C.
    assert (LO : -1 < z) by (apply lt_IZR; lra). assert (HI : z < 430).
    { apply lt_IZR. lra. }
    replace (0 <=? z) with true by lia. replace (z <? 65536) with true by lia. exists z. split; [reflexivity|]. split; [lia|].
    assert (U : 10000000 * z - ns < 5000001) by (apply lt_IZR; rewrite minus_IZR, mult_IZR; lra).
    assert (L : -5000001 < 10000000 * z - ns) by (apply lt_IZR; rewrite minus_IZR, mult_IZR; lra). lia.
Qed.

Lemma dim_range y m : 1 <= m <= 12 -> 28 <= days_in_month y m <= 31.
Proof. intros M. assert (m = 1 \/ m = 2 \/ m = 3 \/ m = 4 \/ m = 5 \/ m = 6 \/ m = 7 \/ m = 8 \/ m = 9 \/ m = 10 \/ m = 11 \/ m = 12) as C by lia. intuition (subst; cbn; try destruct (leap y); lia). Qed.
Lemma dom_succ y m : 1 <= m -> days_of_months y (Z.to_nat m) = days_of_months y (Z.to_nat (m - 1)) + days_in_month y m.
Proof.
  intros M. replace (Z.to_nat m) with (S (Z.to_nat (m - 1))) by lia. cbn [days_of_months]. replace (Z.of_nat (Z.to_nat (m - 1)) + 1) with m by lia. reflexivity.
Qed.
Lemma doy_succ y : 0 <= y -> days_of_years (Z.to_nat (y + 1)) = days_of_years (Z.to_nat y) + (if leap y then 366 else 365).
Proof. intros Y. replace (Z.to_nat (y + 1)) with (S (Z.to_nat y)) by lia. cbn [days_of_years]. rewrite Z2Nat.id by lia. reflexivity. Qed.
Lemma year_days y : days_of_months y 11 + 31 = if leap y then 366 else 365.
Proof. cbn. destruct (leap y); reflexivity. Qed.

Lemma round_utc_spec t : valid_utc t -> 0 <= u_ns t < 1000000000 ->
  exists r, round_utc_time t = Some r /\ u_flags r = u_flags t /\
    0 <= u_year r <= 65535 /\ 1 <= u_month r <= 12 /\ 1 <= u_day r <= days_in_month (u_year r) (u_month r) /\
    0 <= u_hours r < 24 /\ 0 <= u_minutes r < 60 /\ 0 <= u_seconds r < 60 /\ 0 <= u_ns r < 100 /\
    Z.abs (10000000 * (100 * second_number r + u_ns r) - (1000000000 * second_number t + u_ns t)) <= 5000000.
Proof.
  intros (Y & MO & D & H & MI & S) N. destruct (round_cs_spec (u_ns t) ltac:(lia)) as (z & Z1 & Z2 & Z3).
  pose proof (dim_range (u_year t) (u_month t) MO) as DR. unfold round_utc_time. rewrite Z1.
  assert (Z100 : z <= 100) by lia.
  destruct (Z.leb_spec 100 z) as [C|C]; cbn [negb].
  2:{ eexists. split; [reflexivity|]. cbn [u_flags u_year u_month u_day u_hours u_minutes u_seconds u_ns].
      split; [reflexivity|]. repeat (split; [first [assumption|lia]|]). unfold second_number, day_number. cbn [u_flags u_year u_month u_day u_hours u_minutes u_seconds u_ns]. lia. }
  assert (z = 100) by lia. subst z. rewrite (Z.mod_small (u_seconds t + 1)) by lia.
  destruct (Z.leb_spec 60 (u_seconds t + 1)) as [C1|C1]; cbn [negb].
  2:{ eexists. split; [reflexivity|]. cbn [u_flags u_year u_month u_day u_hours u_minutes u_seconds u_ns].
      split; [reflexivity|]. repeat (split; [first [assumption|lia]|]). unfold second_number, day_number. cbn [u_flags u_year u_month u_day u_hours u_minutes u_seconds u_ns]. lia. }
  rewrite (Z.mod_small (u_minutes t + 1)) by lia.
  destruct (Z.leb_spec 60 (u_minutes t + 1)) as [C2|C2]; cbn [negb].
  2:{ eexists. split; [reflexivity|]. cbn [u_flags u_year u_month u_day u_hours u_minutes u_seconds u_ns].
      split; [reflexivity|]. repeat (split; [first [assumption|lia]|]). unfold second_number, day_number. cbn [u_flags u_year u_month u_day u_hours u_minutes u_seconds u_ns]. lia. }
  rewrite (Z.mod_small (u_hours t + 1)) by lia.
  destruct (Z.leb_spec 24 (u_hours t + 1)) as [C3|C3]; cbn [negb].
  2:{ eexists. split; [reflexivity|]. cbn [u_flags u_year u_month u_day u_hours u_minutes u_seconds u_ns].
      split; [reflexivity|]. repeat (split; [first [assumption|lia]|]). unfold second_number, day_number. cbn [u_flags u_year u_month u_day u_hours u_minutes u_seconds u_ns]. lia. }
  rewrite (Z.mod_small (u_day t + 1)) by lia.
  destruct (Z.ltb_spec (days_in_month (u_year t) (u_month t)) (u_day t + 1)) as [C4|C4]; cbn [negb].
  2:{ eexists. split; [reflexivity|]. cbn [u_flags u_year u_month u_day u_hours u_minutes u_seconds u_ns].
      split; [reflexivity|]. repeat (split; [first [assumption|lia]|]). unfold second_number, day_number. cbn [u_flags u_year u_month u_day u_hours u_minutes u_seconds u_ns]. lia. }
  rewrite (Z.mod_small (u_month t + 1)) by lia. pose proof (dom_succ (u_year t) (u_month t) ltac:(lia)) as DS.
  destruct (Z.ltb_spec 12 (u_month t + 1)) as [C5|C5]; cbn [negb].
  - rewrite Z.mod_small by lia. eexists. split; [reflexivity|]. cbn [u_flags u_year u_month u_day u_hours u_minutes u_seconds u_ns].
    split; [reflexivity|]. repeat (split; [first [assumption|lia]|]). split; [cbn; lia|]. repeat (split; [first [assumption|lia]|]).
    unfold second_number, day_number. cbn [u_flags u_year u_month u_day u_hours u_minutes u_seconds u_ns]. change (Z.to_nat (1 - 1)) with 0%nat. cbn [days_of_months].
    rewrite doy_succ by lia. pose proof (year_days (u_year t)) as YD. assert (M12 : u_month t = 12) by lia. rewrite M12 in *. change (Z.to_nat (12 - 1)) with 11%nat in *.
    change (days_in_month (u_year t) 12) with 31 in *. lia.
  - eexists. split; [reflexivity|]. cbn [u_flags u_year u_month u_day u_hours u_minutes u_seconds u_ns].
    pose proof (dim_range (u_year t) (u_month t + 1) ltac:(lia)) as DR2.
    split; [reflexivity|]. repeat (split; [first [assumption|lia]|]). unfold second_number, day_number. cbn [u_flags u_year u_month u_day u_hours u_minutes u_seconds u_ns].
    replace (u_month t + 1 - 1) with (u_month t) by lia. rewrite DS. lia.
Qed.

(** the text *)
Lemma dec1 n : 0 <= n < 10 -> dec n = [48 + n].
Proof. intros N. unfold dec. replace (Z.to_nat (Z.log2 (Z.max 1 n)) + 1)%nat with (S (Z.to_nat (Z.log2 (Z.max 1 n)))) by lia. cbn [dec_fuel]. replace (n <? 10) with true by lia. reflexivity. Qed.
Lemma two_digits n : 0 <= n < 100 -> fmt_u 2 n = [48 + n / 10; 48 + n mod 10].
Proof.
  intros N. assert (L : In n (map Z.of_nat (seq 0 100))) by (apply in_map_iff; exists (Z.to_nat n); split; [lia|apply in_seq; lia]).
  revert L. generalize n. apply Forall_forall. repeat (apply Forall_cons; [vm_compute; reflexivity|]). apply Forall_nil.
Qed.
