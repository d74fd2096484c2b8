(** Proofs about the accuracy tables. *)
From Coq Require Import Reals Lra.
From Flocq Require Import Core IEEE754.Binary IEEE754.Bits.
From Verif Require Import Base Double_model Double_proofs UbxObs_model UbxObs_proofs Esf_model Esf_proofs Ixcom_model Ixcom_float_proofs Tables_model Tables_spec.
Open Scope Z_scope.

#[local] Instance prec24t : Prec_gt_0 24 := eq_refl.
Lemma fadd_spec x y : ffin x = true -> ffin y = true -> (Rabs (fR x + fR y) <= bpow radix2 100)%R ->
  ffin (fadd x y) = true /\ fR (fadd x y) = rnd32 (fR x + fR y).
Proof.
  intros Fx Fy Hb. pose proof (Bplus_correct 24 128 eq_refl eq_refl binop_nan_pl32 mode_NE x y Fx Fy) as H.
  rewrite Rlt_bool_true in H.
  - destruct H as (H1 & H2 & _). split; [exact H2 | exact H1].
  - apply rnd32_bound. exact Hb.
Qed.
Lemma fsub_spec x y : ffin x = true -> ffin y = true -> (Rabs (fR x - fR y) <= bpow radix2 100)%R ->
  ffin (fsub x y) = true /\ fR (fsub x y) = rnd32 (fR x - fR y).
Proof.
  intros Fx Fy Hb. pose proof (Bminus_correct 24 128 eq_refl eq_refl binop_nan_pl32 mode_NE x y Fx Fy) as H.
  rewrite Rlt_bool_true in H.
  - destruct H as (H1 & H2 & _). split; [exact H2 | exact H1].
  - apply rnd32_bound. exact Hb.
Qed.
Lemma fleb_spec x y : ffin x = true -> ffin y = true -> fleb x y = Rle_bool (fR x) (fR y).
Proof.
  intros Fx Fy. unfold fleb. rewrite (Bcompare_correct 24 128 x y Fx Fy). unfold fR, Rle_bool.
  destruct (Rcompare_spec (B2R 24 128 x) (B2R 24 128 y)); reflexivity.
Qed.
Lemma rnd32_format x : generic_format radix2 (FLT_exp (-149) 24) (rnd32 x).
Proof. apply generic_format_round; typeclasses eauto. Qed.

(** ** SISA *)
(** the real computed by one branch of convert_meters_to_sisa, before the conversion to uint8_t *)
Definition G (mn r n u : R) : R := rnd (rnd32 (rnd32 (rnd32 (u - mn) / r) + n) + / 2).
Lemma G_mono mn r n u v : (0 < r)%R -> (u <= v)%R -> (G mn r n u <= G mn r n v)%R.
Proof.
  intros Hr H. unfold G. apply rnd_le. apply Rplus_le_compat_r. apply rnd32_le. apply Rplus_le_compat_r. apply rnd32_le.
  apply Rmult_le_compat_r; [left; apply Rinv_0_lt_compat; exact Hr|]. apply rnd32_le. lra.
Qed.
Lemma G_close mn r n u : (0.009 < r < 0.17)%R -> (0 <= n <= 100)%R -> (0 <= u - mn)%R -> ((u - mn) / r <= 51)%R ->
  (Rabs (G mn r n u - (n + / 2 + (u - mn) / r)) <= / 50000)%R.
Proof.
  intros Hr Hn H0 H1. unfold G. set (x := (u - mn)%R) in *. assert (Hir : (5 < / r < 112)%R).
  { split.
    - replace 5%R with (/ (/ 5))%R by field. apply Rinv_lt_contravar; [apply Rmult_lt_0_compat; lra|]. lra.
    - replace 112%R with (/ (/ 112))%R by field. apply Rinv_lt_contravar; [apply Rmult_lt_0_compat; lra|]. lra. }
  assert (Hx : (x <= 51 * r)%R).
  { apply Rmult_le_reg_r with (/ r)%R; [lra|]. unfold Rdiv in H1. replace (51 * r * / r)%R with 51%R by (field; lra). exact H1. }
  (* a = rnd32 x *)
  assert (Ha : (Rabs (rnd32 x - x) * / r <= / 100000)%R).
  { destruct (Rlt_le_dec r 0.03) as [A|A].
    - assert (E : (Rabs (rnd32 x - x) <= bpow radix2 (1 - 25))%R) by (apply rnd32_err; [lia|]; apply Rabs_lt; change (bpow radix2 1) with 2%R; lra).
      change (bpow radix2 (1 - 25)) with (/ 16777216)%R in E. apply Rle_trans with (/ 16777216 * 112)%R; [|lra].
      apply Rmult_le_compat; [apply Rabs_pos | lra | exact E | lra].
    - assert (E : (Rabs (rnd32 x - x) <= bpow radix2 (4 - 25))%R) by (apply rnd32_err; [lia|]; apply Rabs_lt; change (bpow radix2 4) with 16%R; lra).
      change (bpow radix2 (4 - 25)) with (/ 2097152)%R in E.
      assert (I : (/ r < 34)%R) by (replace 34%R with (/ (/ 34))%R by field; apply Rinv_lt_contravar; [apply Rmult_lt_0_compat; lra|lra]).
      destruct (Rlt_le_dec r 0.1) as [B|B].
      + assert (E' : (Rabs (rnd32 x - x) <= bpow radix2 (3 - 25))%R) by (apply rnd32_err; [lia|]; apply Rabs_lt; change (bpow radix2 3) with 8%R; lra).
        change (bpow radix2 (3 - 25)) with (/ 4194304)%R in E'.
        destruct (Rlt_le_dec x 4) as [C|C].
        * assert (E2 : (Rabs (rnd32 x - x) <= bpow radix2 (2 - 25))%R) by (apply rnd32_err; [lia|]; apply Rabs_lt; change (bpow radix2 2) with 4%R; lra).
          change (bpow radix2 (2 - 25)) with (/ 8388608)%R in E2. apply Rle_trans with (/ 8388608 * 34)%R; [|lra].
          apply Rmult_le_compat; [apply Rabs_pos | lra | exact E2 | lra].
        * assert (I2 : (/ r < 13)%R) by (replace 13%R with (/ (/ 13))%R by field; apply Rinv_lt_contravar; [apply Rmult_lt_0_compat; lra|lra]).
          apply Rle_trans with (/ 4194304 * 13)%R; [|lra].
          apply Rmult_le_compat; [apply Rabs_pos | lra | exact E' | lra].
      + assert (I2 : (/ r < 11)%R) by (replace 11%R with (/ (/ 11))%R by (field); apply Rinv_lt_contravar; [apply Rmult_lt_0_compat; lra|lra]).
        apply Rle_trans with (/ 2097152 * 11)%R; [|lra].
        apply Rmult_le_compat; [apply Rabs_pos | lra | exact E | lra]. }
  set (a := rnd32 x) in *.
  assert (Ha' : (Rabs (a / r - x / r) <= / 100000)%R).
  { replace (a / r - x / r)%R with ((a - x) * / r)%R by (unfold Rdiv; ring). rewrite Rabs_mult, (Rabs_pos_eq (/ r)) by lra. exact Ha. }
  assert (Hxr : (0 <= x / r)%R) by (unfold Rdiv; apply Rmult_le_pos; lra).
  apply Rabs_le_inv in Ha'.
  assert (Hq : (Rabs (rnd32 (a / r) - a / r) <= bpow radix2 (6 - 25))%R) by (apply rnd32_err; [lia|]; apply Rabs_lt; change (bpow radix2 6) with 64%R; lra).
  change (bpow radix2 (6 - 25)) with (/ 524288)%R in Hq. apply Rabs_le_inv in Hq. set (q := rnd32 (a / r)) in *.
  assert (Hs : (Rabs (rnd32 (q + n) - (q + n)) <= bpow radix2 (8 - 25))%R) by (apply rnd32_err; [lia|]; apply Rabs_lt; change (bpow radix2 8) with 256%R; lra).
  change (bpow radix2 (8 - 25)) with (/ 131072)%R in Hs. apply Rabs_le_inv in Hs. set (s := rnd32 (q + n)) in *.
  assert (Hd : (Rabs (rnd (s + / 2) - (s + / 2)) <= bpow radix2 (8 - 54))%R) by (apply rnd_err; [lia|]; apply Rabs_lt; change (bpow radix2 8) with 256%R; lra).
  change (bpow radix2 (8 - 54)) with (/ 70368744177664)%R in Hd. apply Rabs_le_inv in Hd.
  apply Rabs_le. lra.
Qed.

Lemma to_u8_spec x : dfin x = true -> (0 <= dR x < 256)%R -> to_u8 x = Some (Ztrunc (dR x)) /\ 0 <= Ztrunc (dR x) <= 255.
Proof.
  intros F H. unfold to_u8. rewrite (dtrunc_spec _ F). destruct (trunc_nonneg (dR x) (proj1 H)) as [A B].
  assert (Ztrunc (dR x) < 256) by (apply lt_IZR; lra).
  split; [|lia]. replace ((0 <=? Ztrunc (dR x)) && (Ztrunc (dR x) <? 256)) with true by lia. reflexivity.
Qed.
Lemma d05_val : dfin d05 = true /\ dR d05 = (/ 2)%R.
Proof. destruct (dme_spec d05 4503599627370496 (-53) ltac:(vm_compute; reflexivity)) as [A B]. split; [exact A|]. rewrite B. change (bpow radix2 (-53)) with (/ 9007199254740992)%R. lra. Qed.
Lemma fofZ_int n : Z.abs n < 2 ^ 24 -> ffin (fofZ n 0) = true /\ fR (fofZ n 0) = IZR n.
Proof. intros H. destruct (fofZ_spec n 0 H ltac:(lia)) as [A B]. split; [exact A|]. rewrite B. change (bpow radix2 0) with 1%R. ring. Qed.
Lemma seg_tail s x n : ffin s = true -> fR s = x -> (0 <= x <= 200)%R -> n = rnd (x + / 2) ->
  to_u8 (dadd (dofflt s) d05) = Some (Ztrunc n) /\ 0 <= Ztrunc n <= 255.
Proof.
  intros F E H ->. destruct (dofflt_exact s F) as [F1 R1]. destruct d05_val as [F2 R2]. change (B2R 24 128 s) with (fR s) in R1.
  destruct (dadd_spec (dofflt s) d05 F1 F2) as [F3 R3].
  { rewrite R1, R2, E. apply Rabs_le. split; [|apply Rle_trans with 256%R; [lra|change 256%R with (bpow radix2 8); apply bpow_le; lia]].
    apply Rle_trans with 0%R; [|lra]. pose proof (bpow_ge_0 radix2 1000). lra. }
  rewrite <- R3 in * || idtac. rewrite R1, R2, E in R3.
  assert (B : (0 <= rnd (x + / 2) < 256)%R).
  { split; [apply (rnd_ge_z _ 0); [lia|lra] | apply Rle_lt_trans with 201%R; [apply (rnd_le_z _ 201); [lia|lra] | lra]]. }
  rewrite <- R3 in B |- *. apply to_u8_spec; assumption.
Qed.

Lemma seg_val u mn r st mn' r' n : ffin u = true -> ffin mn = true -> ffin st = true -> fR mn = mn' -> fR r = r' -> fR st = n ->
  (0.009 < r' < 0.17)%R -> (0 <= n <= 100)%R -> (0 <= fR u - mn')%R -> ((fR u - mn') / r' <= 51)%R -> (fR u <= 100)%R -> (0 <= mn')%R ->
  ffin (fdiv (fsub u mn) r) = true /\ fR (fdiv (fsub u mn) r) = rnd32 (rnd32 (fR u - mn') / r') /\ (0 <= fR (fdiv (fsub u mn) r) <= 52)%R /\
  to_u8 (dadd (dofflt (fadd (fdiv (fsub u mn) r) st)) d05) = Some (Ztrunc (G mn' r' n (fR u))) /\ 0 <= Ztrunc (G mn' r' n (fR u)) <= 255.
Proof.
  intros Fu Fm Fs Em Er En Hr Hn H0 H1 Hu Hmn.
  assert (B100 : (1000 <= bpow radix2 100)%R) by (apply Rle_trans with 1024%R; [lra|change 1024%R with (bpow radix2 10); apply bpow_le; lia]).
  destruct (fsub_spec u mn Fu Fm) as [F1 R1]. { rewrite Em. apply Rabs_le. lra. }
  rewrite Em in R1.
  assert (A0 : (0 <= rnd32 (fR u - mn'))%R) by (rewrite <- (rnd32_id 0) by apply generic_format_0; apply rnd32_le; exact H0).
  assert (IR : rnd32 128 = 128%R) by (apply rnd32_id; replace 128%R with (IZR 1 * bpow radix2 7)%R by (change (bpow radix2 7) with 128%R; ring); apply int32_format; lia).
  assert (A1 : (rnd32 (fR u - mn') <= 128)%R) by (rewrite <- IR; apply rnd32_le; lra).
  assert (Hir : (0 < / r' < 112)%R).
  { split; [apply Rinv_0_lt_compat; lra|]. replace 112%R with (/ (/ 112))%R by field. apply Rinv_lt_contravar; [apply Rmult_lt_0_compat; lra|]. lra. }
  destruct (fdiv_spec (fsub u mn) r F1) as [F2 R2]. { rewrite Er. lra. }
  { rewrite R1, Er. unfold Rdiv. apply Rabs_le. split.
    - apply Rle_trans with 0%R; [lra|]. apply Rmult_le_pos; lra.
    - apply Rle_trans with (128 * 112)%R; [apply Rmult_le_compat; lra|]. apply Rle_trans with 16384%R; [lra|]. change 16384%R with (bpow radix2 14). apply bpow_le. lia. }
  rewrite R1, Er in R2.
  assert (I52 : rnd32 52 = 52%R) by (apply rnd32_id; replace 52%R with (IZR 52 * bpow radix2 0)%R by (change (bpow radix2 0) with 1%R; ring); apply int32_format; lia).
  assert (Q : (0 <= rnd32 (rnd32 (fR u - mn') / r') <= 52)%R).
  { split.
    - rewrite <- (rnd32_id 0) by apply generic_format_0. apply rnd32_le. unfold Rdiv. apply Rmult_le_pos; lra.
    - rewrite <- I52. apply rnd32_le. 
      assert (E : (Rabs (rnd32 (fR u - mn') - (fR u - mn')) <= bpow radix2 (7 - 25))%R).
      { apply rnd32_err; [lia|]. apply Rabs_lt. change (bpow radix2 7) with 128%R. lra. }
      change (bpow radix2 (7 - 25)) with (/ 262144)%R in E. apply Rabs_le_inv in E.
      apply Rle_trans with ((fR u - mn') / r' + / 262144 * 112)%R; [|lra]. unfold Rdiv.
      assert (X : ((rnd32 (fR u - mn') - (fR u - mn')) * / r' <= / 262144 * 112)%R).
      { apply Rle_trans with (/ 262144 * / r')%R; [apply Rmult_le_compat_r; lra|apply Rmult_le_compat_l; lra]. }
      lra. }
  split; [exact F2|]. split; [exact R2|]. rewrite R2. split; [exact Q|].
  destruct (fadd_spec (fdiv (fsub u mn) r) st F2 Fs) as [F3 R3]. { rewrite R2, En. apply Rabs_le. lra. }
  rewrite R2, En in R3.
  apply (seg_tail _ _ _ F3 R3); [|reflexivity].
  assert (I200 : rnd32 200 = 200%R) by (apply rnd32_id; replace 200%R with (IZR 200 * bpow radix2 0)%R by (change (bpow radix2 0) with 1%R; ring); apply int32_format; lia).
  split; [rewrite <- (rnd32_id 0) by apply generic_format_0; apply rnd32_le; lra | rewrite <- I200; apply rnd32_le; lra].
Qed.

Lemma f0_val : ffin f0 = true /\ fR f0 = 0%R. Proof. exact (fofZ_int 0 ltac:(lia)). Qed.
Lemma f1_val : ffin f1 = true /\ fR f1 = 1%R. Proof. exact (fofZ_int 1 ltac:(lia)). Qed.
Lemma f2_val : ffin f2 = true /\ fR f2 = 2%R. Proof. exact (fofZ_int 2 ltac:(lia)). Qed.
Lemma f6_val : ffin f6 = true /\ fR f6 = 6%R. Proof. exact (fofZ_int 6 ltac:(lia)). Qed.
Lemma f05_val : ffin f05 = true /\ fR f05 = (/ 2)%R.
Proof. destruct (fme_spec f05 8388608 (-24) ltac:(vm_compute; reflexivity)) as [A B]. split; [exact A|]. rewrite B. change (bpow radix2 (-24)) with (/ 16777216)%R. lra. Qed.
Definition r1 : R := (10737418 / 1073741824)%R.
Definition r2 : R := (10737418 / 536870912)%R.
Definition r3 : R := (10737418 / 268435456)%R.
Definition r4 : R := (10737418 / 67108864)%R.
Lemma res1_val : ffin res1 = true /\ fR res1 = r1.
Proof. destruct (fme_spec res1 10737418 (-30) ltac:(vm_compute; reflexivity)) as [A B]. split; [exact A|]. rewrite B. reflexivity. Qed.
Lemma res2_val : ffin res2 = true /\ fR res2 = r2.
Proof. destruct (fme_spec res2 10737418 (-29) ltac:(vm_compute; reflexivity)) as [A B]. split; [exact A|]. rewrite B. reflexivity. Qed.
Lemma res3_val : ffin res3 = true /\ fR res3 = r3.
Proof. destruct (fme_spec res3 10737418 (-28) ltac:(vm_compute; reflexivity)) as [A B]. split; [exact A|]. rewrite B. reflexivity. Qed.
Lemma res4_val : ffin res4 = true /\ fR res4 = r4.
Proof. destruct (fme_spec res4 10737418 (-26) ltac:(vm_compute; reflexivity)) as [A B]. split; [exact A|]. rewrite B. reflexivity. Qed.

(** the segment a value lies in: minimum, first index, number of indices, resolution *)
Record seg := mkseg { s_min : R; s_base : Z; s_n : Z; s_res : R; s_nom : R; s_max : R }.
Definition seg1 := mkseg 0 0 50 r1 0.01 (/ 2).
Definition seg2 := mkseg (/ 2) 50 25 r2 0.02 1.
Definition seg3 := mkseg 1 75 25 r3 0.04 2.
Definition seg4 := mkseg 2 100 25 r4 0.16 6.
Definition segG (s : seg) (u : R) : R := G (s_min s) (s_res s) (IZR (s_base s)) u.
Definition seg_ok (s : seg) : Prop := In s [seg1; seg2; seg3; seg4].
(** convert_meters_to_sisa on the nonnegative numbers up to 6 *)
Lemma sisa_cases u : ffin u = true -> (0 <= fR u <= 6)%R ->
  exists s, seg_ok s /\ meters_to_sisa u = Some (Ztrunc (segG s (fR u))) /\ 0 <= Ztrunc (segG s (fR u)) <= 255 /\
    ((s = seg1 /\ (fR u <= / 2)%R) \/ (s = seg2 /\ (/ 2 < fR u <= 1)%R) \/ (s = seg3 /\ (1 < fR u <= 2)%R) \/ (s = seg4 /\ (2 < fR u <= 6)%R)).
Proof.
  intros F H. destruct f0_val as [F0 R0], f05_val as [F05 R05], f1_val as [F1 R1], f2_val as [F2 R2], f6_val as [F6 R6].
  destruct res1_val as [Fa Ra], res2_val as [Fb Rb], res3_val as [Fc Rc], res4_val as [Fd Rd].
  unfold meters_to_sisa. rewrite fltb_spec, !fleb_spec by assumption. rewrite R0, R05, R1, R2, R6.
  rewrite Rlt_bool_false by lra.
  destruct (Rle_bool_spec (fR u) (/ 2)) as [A|A].
  { exists seg1. unfold seg_ok, segG. cbn [seg1 s_min s_res s_base In]. split; [tauto|].
    destruct (fofZ_int 0 ltac:(lia)) as [Fz Rz].
    destruct (seg_val u f0 res1 (fofZ 0 0) 0 r1 0 F F0 Fz R0 Ra Rz) as (P1 & P2 & P3 & _); unfold r1; try lra.
    fold r1 in P2. rewrite P2 in P3.
    assert (EG : G 0 r1 0 (fR u) = rnd (rnd32 (rnd32 (fR u - 0) / r1) + / 2)).
    { unfold G. rewrite Rplus_0_r. rewrite (rnd32_id (rnd32 (rnd32 (fR u - 0) / r1))) by apply rnd32_format. reflexivity. }
    destruct (seg_tail _ _ (G 0 r1 0 (fR u)) P1 P2 ltac:(lra) EG) as [T1 T2].
    fold r1. split; [exact T1|]. split; [exact T2|]. left. split; [reflexivity|exact A]. }
  destruct (Rle_bool_spec (fR u) 1) as [B|B].
  { exists seg2. unfold seg_ok, segG. cbn [seg2 s_min s_res s_base In]. split; [tauto|]. destruct (fofZ_int 50 ltac:(lia)) as [Fz Rz].
    destruct (seg_val u f05 res2 (fofZ 50 0) (/ 2) r2 50 F F05 Fz R05 Rb Rz) as (_ & _ & _ & P1 & P2); unfold r2; try lra.
    fold r2. split; [exact P1|]. split; [exact P2|]. right. left. split; [reflexivity|lra]. }
  destruct (Rle_bool_spec (fR u) 2) as [C|C].
  { exists seg3. unfold seg_ok, segG. cbn [seg3 s_min s_res s_base In]. split; [tauto|]. destruct (fofZ_int 75 ltac:(lia)) as [Fz Rz].
    destruct (seg_val u f1 res3 (fofZ 75 0) 1 r3 75 F F1 Fz R1 Rc Rz) as (_ & _ & _ & P1 & P2); unfold r3; try lra.
    fold r3. split; [exact P1|]. split; [exact P2|]. right. right. left. split; [reflexivity|lra]. }
  rewrite Rle_bool_true by lra.
  exists seg4. unfold seg_ok, segG. cbn [seg4 s_min s_res s_base In]. split; [tauto|]. destruct (fofZ_int 100 ltac:(lia)) as [Fz Rz].
  destruct (seg_val u f2 res4 (fofZ 100 0) 2 r4 100 F F2 Fz R2 Rd Rz) as (_ & _ & _ & P1 & P2); unfold r4; try lra.
  fold r4. split; [exact P1|]. split; [exact P2|]. right. right. right. split; [reflexivity|lra].
Qed.

Lemma segG_close s u : seg_ok s -> (s_min s <= u <= s_max s)%R ->
  (Rabs (segG s u - (IZR (s_base s) + / 2 + (u - s_min s) / s_res s)) <= / 50000)%R /\ (0.009 < s_res s < 0.17)%R /\
  (0 <= (u - s_min s) / s_res s <= IZR (s_n s) + / 100000)%R.
Proof.
  intros Hs Hu. 
  assert (X : (0.009 < s_res s < 0.17)%R /\ (0 <= IZR (s_base s) <= 100)%R /\ (0 <= (u - s_min s) / s_res s <= IZR (s_n s) + / 100000)%R /\ (IZR (s_n s) <= 50)%R).
  { destruct Hs as [<-|[<-|[<-|[<-|[]]]]]; cbn [seg1 seg2 seg3 seg4 s_min s_max s_res s_base s_n] in *; unfold r1, r2, r3, r4 in *; repeat split; lra. }
  destruct X as (X1 & X2 & X3 & X4). split; [|split; assumption]. unfold segG. apply G_close; try lra.
Qed.
Lemma segG_index s u : seg_ok s -> (s_min s <= u <= s_max s)%R ->
  s_base s <= Ztrunc (segG s u) <= s_base s + s_n s /\ (Rabs (IZR (Ztrunc (segG s u) - s_base s) * s_res s - (u - s_min s)) <= s_res s / 2 + / 200000)%R.
Proof.
  intros Hs Hu. destruct (segG_close s u Hs Hu) as (C & Hr & Hq). apply Rabs_le_inv in C.
  assert (Hb : 0 <= s_base s) by (destruct Hs as [<-|[<-|[<-|[<-|[]]]]]; cbn; lia).
  assert (Hb' : (0 <= IZR (s_base s))%R) by (apply IZR_le; exact Hb).
  destruct (trunc_nonneg (segG s u)) as [T T0]; [lra|]. set (i := Ztrunc (segG s u)) in *.
  split.
  - assert (s_base s < i + 1) by (apply lt_IZR; rewrite plus_IZR; lra).
    assert (i < s_base s + s_n s + 1) by (apply lt_IZR; rewrite !plus_IZR; lra). lia.
  - rewrite minus_IZR. set (q := ((u - s_min s) / s_res s)%R) in *.
    assert (E : (u - s_min s = q * s_res s)%R) by (unfold q; field; lra). rewrite E.
    replace ((IZR i - IZR (s_base s)) * s_res s - q * s_res s)%R with ((IZR i - IZR (s_base s) - q) * s_res s)%R by ring.
    rewrite Rabs_mult, (Rabs_pos_eq (s_res s)) by lra.
    apply Rle_trans with ((/ 2 + / 50000) * s_res s)%R; [|lra]. apply Rmult_le_compat_r; [lra|]. apply Rabs_le. lra.
Qed.
Lemma Ztrunc_mono x y : (x <= y)%R -> Ztrunc x <= Ztrunc y. Proof. apply Ztrunc_le. Qed.
Lemma segG_mono s u v : seg_ok s -> (u <= v)%R -> (segG s u <= segG s v)%R.
Proof. intros Hs H. unfold segG. apply G_mono; [|exact H]. destruct Hs as [<-|[<-|[<-|[<-|[]]]]]; cbn; unfold r1, r2, r3, r4; lra. Qed.

(** the decoded values *)
Definition fme0 (x : binary32) : option (Z * Z) :=
  match x with B754_zero _ _ _ => Some (0, 0) | B754_finite _ _ s m e _ => Some (cond_Zopp s (Zpos m), e) | _ => None end.
Lemma fme0_spec x m e : fme0 x = Some (m, e) -> ffin x = true /\ fR x = (IZR m * bpow radix2 e)%R.
Proof.
  destruct x; cbn [fme0]; intros H; try discriminate; injection H as <- <-; split; try reflexivity. unfold fR. cbn [B2R]. ring.
Qed.
(** |x - n / d| <= 10^-6 *)
Definition near_ratio (x : binary32) (n d : Z) : bool :=
  match fme0 x with
  | Some (m, e) => (e <=? 0) && (Z.abs (d * m - n * 2 ^ (- e)) * 1000000 <=? d * 2 ^ (- e))
  | None => false
  end.
Lemma near_ratio_spec x n d : 0 < d -> near_ratio x n d = true -> ffin x = true /\ (Rabs (fR x - IZR n / IZR d) <= / 1000000)%R.
Proof.
  intros Hd H. unfold near_ratio in H. destruct (fme0 x) as [[m e]|] eqn:E; [|discriminate]. destruct (fme0_spec _ _ _ E) as [F V].
  apply andb_prop in H. destruct H as [H1 H2]. apply Z.leb_le in H1, H2. split; [exact F|]. rewrite V.
  assert (P : 0 < 2 ^ (- e)) by (apply Z.pow_pos_nonneg; lia).
  assert (B : bpow radix2 e = (/ IZR (2 ^ (- e)))%R) by (rewrite pow_bpow by lia; rewrite <- bpow_opp; f_equal; lia).
  rewrite B. set (p := 2 ^ (- e)) in *. apply IZR_lt in P, Hd. 
  replace (IZR m * / IZR p - IZR n / IZR d)%R with (IZR (d * m - n * p) * / (IZR d * IZR p))%R
    by (rewrite minus_IZR, !mult_IZR; field; lra).
  rewrite Rabs_mult, <- abs_IZR, (Rabs_pos_eq (/ (IZR d * IZR p))).
  2:{ left. apply Rinv_0_lt_compat. apply Rmult_lt_0_compat; assumption. }
  apply IZR_le in H2. rewrite !mult_IZR in H2. 
  apply Rmult_le_reg_r with (IZR d * IZR p)%R; [apply Rmult_lt_0_compat; assumption|].
  rewrite Rmult_assoc, Rinv_l, Rmult_1_r by (apply Rgt_not_eq, Rmult_lt_0_compat; assumption). lra.
Qed.
Lemma all_below (P : Z -> bool) n : forallb P (map Z.of_nat (seq 0 n)) = true -> forall i, 0 <= i < Z.of_nat n -> P i = true.
Proof.
  intros H i Hi. rewrite forallb_forall in H. apply H. apply in_map_iff. exists (Z.to_nat i). split; [lia|]. apply in_seq. lia.
Qed.
Lemma sisa_value i : 0 <= i <= 125 -> ffin (sisa_to_meters i) = true /\ (Rabs (fR (sisa_to_meters i) - IZR (sisa_cm i) / 100) <= / 1000000)%R.
Proof.
  intros H. apply near_ratio_spec; [lia|].
  refine (all_below (fun i => near_ratio (sisa_to_meters i) (sisa_cm i) 100) 126 _ i ltac:(lia)). vm_compute. reflexivity.
Qed.
Lemma sisa_cm_seg s i : seg_ok s -> s_base s <= i <= s_base s + s_n s -> (IZR (sisa_cm i) / 100 = s_min s + IZR (i - s_base s) * s_nom s)%R.
Proof.
  intros Hs Hi. unfold sisa_cm. rewrite minus_IZR. destruct Hs as [<-|[<-|[<-|[<-|[]]]]]; cbn [seg1 seg2 seg3 seg4 s_min s_nom s_base s_n] in *.
  - replace (i <=? 50) with true by lia. lra.
  - replace (i <=? 75) with true by lia. destruct (i <=? 50) eqn:A.
    + assert (i = 50) as -> by lia. lra.
    + rewrite plus_IZR, mult_IZR, minus_IZR. lra.
  - replace (i <=? 100) with true by lia. replace (i <=? 50) with false by lia. destruct (i <=? 75) eqn:A.
    + assert (i = 75) as -> by lia. rewrite plus_IZR, mult_IZR, minus_IZR. lra.
    + rewrite plus_IZR, mult_IZR, minus_IZR. lra.
  - replace (i <=? 50) with false by lia. replace (i <=? 75) with false by lia. destruct (i <=? 100) eqn:A.
    + assert (i = 100) as -> by lia. rewrite plus_IZR, mult_IZR, minus_IZR. lra.
    + rewrite plus_IZR, mult_IZR, minus_IZR. lra.
Qed.
Lemma sisa_near u : ffin u = true -> (0 <= fR u <= 6)%R -> exists i, meters_to_sisa u = Some i /\ 0 <= i <= 125 /\
  (Rabs (fR (sisa_to_meters i) - fR u) <= sisa_resolution (fR u) / 2 + / 100000)%R.
Proof.
  intros F H. destruct (sisa_cases u F H) as (s & Hs & E & _ & C).
  assert (Hu : (s_min s <= fR u <= s_max s)%R) by (destruct C as [[-> ?]|[[-> ?]|[[-> ?]|[-> ?]]]]; cbn; lra).
  destruct (segG_index s (fR u) Hs Hu) as [I1 I2]. exists (Ztrunc (segG s (fR u))). split; [exact E|]. set (i := Ztrunc (segG s (fR u))) in *.
  assert (B : 0 <= i <= 125) by (destruct Hs as [<-|[<-|[<-|[<-|[]]]]]; cbn in I1; lia). split; [exact B|].
  assert (N : sisa_resolution (fR u) = s_nom s).
  { unfold sisa_resolution. destruct C as [[-> ?]|[[-> ?]|[[-> ?]|[-> ?]]]]; cbn [s_nom seg1 seg2 seg3 seg4];
    repeat (first [rewrite Rle_bool_true by lra | rewrite Rle_bool_false by lra]); reflexivity. }
  rewrite N. destruct (sisa_value i B) as [_ V]. rewrite (sisa_cm_seg s i Hs I1) in V. apply Rabs_le_inv in V, I2.
  assert (J : (0 <= IZR (i - s_base s) <= IZR (s_n s))%R) by (split; apply IZR_le; lia). set (k := IZR (i - s_base s)) in *.
  apply Rabs_le. clear -V I2 J Hs. destruct Hs as [<-|[<-|[<-|[<-|[]]]]]; cbn [seg1 seg2 seg3 seg4 s_min s_nom s_base s_n s_res] in *; unfold r1, r2, r3, r4 in *; lra.
Qed.
Lemma sisa_mono u v i j : ffin u = true -> ffin v = true -> (0 <= fR u)%R -> (fR u <= fR v)%R -> (fR v <= 6)%R ->
  meters_to_sisa u = Some i -> meters_to_sisa v = Some j -> i <= j.
Proof.
  intros Fu Fv H0 H1 H2 E1 E2. destruct (sisa_cases u Fu ltac:(lra)) as (s & Hs & E & _ & C). destruct (sisa_cases v Fv ltac:(lra)) as (s' & Hs' & E' & _ & C').
  assert (Hu : (s_min s <= fR u <= s_max s)%R) by (destruct C as [[-> ?]|[[-> ?]|[[-> ?]|[-> ?]]]]; cbn; lra).
  assert (Hv : (s_min s' <= fR v <= s_max s')%R) by (destruct C' as [[-> ?]|[[-> ?]|[[-> ?]|[-> ?]]]]; cbn; lra).
  destruct (segG_index s (fR u) Hs Hu) as [I1 _]. destruct (segG_index s' (fR v) Hs' Hv) as [I2 _].
  rewrite E in E1. rewrite E' in E2. injection E1 as <-. injection E2 as <-.
  pose proof (Ztrunc_mono _ _ (segG_mono s _ _ Hs H1)) as M.
  destruct C as [[-> ?]|[[-> ?]|[[-> ?]|[-> ?]]]], C' as [[-> ?]|[[-> ?]|[[-> ?]|[-> ?]]]]; try lra; try exact M;
    cbn [seg1 seg2 seg3 seg4 s_base s_n] in I1, I2; lia.
Qed.
Lemma sisa_above u : (ffin u = true /\ (6 < fR u)%R) \/ (ffin u = true /\ (fR u < 0)%R) \/ ffin u = false -> meters_to_sisa u = Some 255.
Proof.
  destruct f0_val as [F0 R0], f05_val as [F05 R05], f1_val as [F1 R1], f2_val as [F2 R2], f6_val as [F6 R6].
  intros [[F H]|[[F H]|H]]; unfold meters_to_sisa.
  - rewrite fltb_spec, !fleb_spec by assumption. rewrite R0, R05, R1, R2, R6.
    rewrite Rlt_bool_false by lra. rewrite !Rle_bool_false by lra. reflexivity.
  - rewrite fltb_spec by assumption. rewrite R0. rewrite Rlt_bool_true by exact H. reflexivity.
  - destruct u as [s|s|s pl Hp|s m e Hb]; try discriminate H; [destruct s|]; reflexivity.
Qed.

(** ** URA *)
Lemma fabs_R x : ffin x = true -> ffin (fabs x) = true /\ fR (fabs x) = Rabs (fR x).
Proof.
  destruct x as [s|s|s pl Hp|s m e Hb]; intros F; try discriminate; cbn [fabs]; (split; [reflexivity|]); unfold fR; cbn [B2R].
  - rewrite Rabs_R0. reflexivity.
  - rewrite <- F2R_Zabs. f_equal. destruct s; reflexivity.
Qed.
(** the difference with a table entry, decided for every tolerance *)
Definition hit (uri c : binary32) : option bool :=
  let d := dofflt (fabs (fsub uri c)) in
  if negb (is_finite 53 1024 d) then None
  else if dltb (dofbits 0x3fb999999999999b) d then Some false
  else if dltb (dofZ 0) d then None else Some true.
Lemma hit_spec eps uri c b : eps_ok eps -> hit uri c = Some b -> dltb (dofflt (fabs (fsub uri c))) eps = b.
Proof.
  intros [Fe He] H. unfold hit in H. set (d := dofflt (fabs (fsub uri c))) in *. fold (dfin d) in H. destruct (dfin d) eqn:F; [|discriminate]. cbn [negb] in H.
  change (dfin eps = true) in Fe. change (B2R 53 1024 eps) with (dR eps) in He.
  assert (D0 : dfin (dofZ 0) = true /\ dR (dofZ 0) = 0%R) by (apply dofZ_exact; lia). destruct D0 as [F0 R0].
  destruct (dme_spec (dofbits 0x3fb999999999999b) 7205759403792795 (-56) ltac:(vm_compute; reflexivity)) as [F1 R1].
  change (bpow radix2 (-56)) with (/ 72057594037927936)%R in R1.
  rewrite (dltb_spec _ d F1 F), (dltb_spec _ d F0 F), R0, R1 in H. rewrite (dltb_spec d eps F Fe).
  destruct (Rlt_bool_spec (7205759403792795 * / 72057594037927936) (dR d)) as [A|A].
  - injection H as <-. apply Rlt_bool_false. lra.
  - destruct (Rlt_bool_spec 0 (dR d)) as [B|B]; [discriminate|]. injection H as <-. apply Rlt_bool_true. lra.
Qed.
Fixpoint chain_hit (tbl : list (Z * Z)) (uri : binary32) : option (option Z) :=
  match tbl with
  | [] => Some None
  | (c, i) :: r => match hit uri (fofbits c) with Some true => Some (Some i) | Some false => chain_hit r uri | None => None end
  end.
Definition by_log (log2f : binary32 -> binary32) (uri : binary32) : option Z := to_u8 (dadd (dofflt (log2f uri)) (dofZ 2)).
Lemma chain_hit_spec eps l tbl uri o : eps_ok eps -> chain_hit tbl uri = Some o ->
  uri_chain eps l tbl uri = match o with Some i => Some i | None => by_log l uri end.
Proof.
  intros He. induction tbl as [|[c i] r IH]; cbn [chain_hit uri_chain]; intros H.
  - injection H as <-. reflexivity.
  - destruct (hit uri (fofbits c)) as [[]|] eqn:A; [|..|discriminate]; rewrite (hit_spec _ _ _ _ He A).
    + injection H as <-. reflexivity.
    + apply IH, H.
Qed.
(** the logarithm branch: exponent k gives index k + 2 *)
Lemma by_log_spec l uri k : log2_ok l -> ffin uri = true -> (bpow radix2 k <= fR uri)%R -> (fR uri = bpow radix2 k \/ 4 * fR uri <= 3 * bpow radix2 (k + 1))%R ->
  -2 <= k <= 127 -> by_log l uri = Some (k + 2).
Proof.
  intros Hl F H1 H2 Hk. assert (P : (0 < fR uri)%R) by (pose proof (bpow_gt_0 radix2 k); lra).
  destruct (Hl uri F P) as [Fl L]. set (y := l uri) in *. change (B2R 24 128 y) with (fR y) in L. change (B2R 24 128 uri) with (fR uri) in L.
  assert (Y : (IZR k <= fR y <= IZR k + 3 / 4)%R).
  { destruct (L k) as (A & B & _). split; [apply A, H1|]. destruct H2 as [H2|H2].
    - assert (fR y <= IZR k)%R by (apply B; lra). lra.
    - destruct (L (k + 1)) as (_ & _ & C). specialize (C H2). rewrite plus_IZR in C. lra. }
  destruct (dofflt_exact y Fl) as [F1 R1]. change (B2R 24 128 y) with (fR y) in R1.
  destruct (dofZ_exact 2 ltac:(lia)) as [F2 R2].
  assert (K : (-2 <= IZR k <= 127)%R) by (split; apply IZR_le; lia).
  destruct (dadd_spec (dofflt y) (dofZ 2) F1 F2) as [F3 R3].
  { rewrite R1, R2. apply Rle_trans with 256%R; [apply Rabs_le; lra|]. change 256%R with (bpow radix2 8). apply bpow_le. lia. }
  rewrite R1, R2 in R3. unfold by_log. fold y.
  assert (E : (Rabs (rnd (fR y + 2) - (fR y + 2)) <= bpow radix2 (8 - 54))%R) by (apply rnd_err; [lia|]; apply Rabs_lt; change (bpow radix2 8) with 256%R; lra).
  change (bpow radix2 (8 - 54)) with (/ 70368744177664)%R in E. apply Rabs_le_inv in E.
  assert (N : (IZR (k + 2) <= rnd (fR y + 2))%R) by (apply rnd_ge_z; [lia|]; rewrite plus_IZR; lra).
  rewrite plus_IZR in N.
  destruct (to_u8_spec _ F3) as [T _]; [rewrite R3; lra|]. rewrite T, R3. f_equal.
  destruct (trunc_nonneg (rnd (fR y + 2))) as [T1 _]; [lra|].
  assert (k + 2 < Ztrunc (rnd (fR y + 2)) + 1) by (apply lt_IZR; rewrite !plus_IZR; lra).
  assert (Ztrunc (rnd (fR y + 2)) < k + 3) by (apply lt_IZR; rewrite !plus_IZR; lra). lia.
Qed.
