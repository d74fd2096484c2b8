(** Lemmas about the content of the fields of NMEA sentences. *)
From Coq Require Import String Reals Lra.
From Flocq Require Import Core IEEE754.Binary IEEE754.Bits.
From Verif Require Import Base Double_model Double_proofs Esf_proofs Sbp2Rtcm_proofs NmeaText_model NmeaTime_model NmeaTime_spec NmeaTime_proofs Nmea_model Nmea_spec NmeaState_model NmeaState_spec NmeaLists_spec
  NmeaSeq_proofs NmeaSend_proofs NmeaLists_proofs NmeaFields_spec.
Open Scope Z_scope.
Open Scope list_scope.

(** ** splitting *)
Lemma fields_one a : commas a = 0 -> fields a = [a].
Proof.
  induction a as [|c a IH]; intros H; [reflexivity|]. cbn [commas] in H. pose proof (commas_nonneg a). cbn [fields]. destruct (c =? 44); [lia|]. rewrite IH by lia. reflexivity.
Qed.
Lemma fields_cons a b : commas a = 0 -> fields (a ++ 44 :: b) = a :: fields b.
Proof.
  induction a as [|c a IH]; intros H; [reflexivity|]. cbn [commas] in H. pose proof (commas_nonneg a). cbn [app fields]. destruct (c =? 44); [lia|]. rewrite IH by lia. reflexivity.
Qed.
Fixpoint join (fs : list (list Z)) : list Z := match fs with [] => [] | [f] => f | f :: fs => f ++ 44 :: join fs end.
Lemma fields_join fs : fs <> [] -> Forall (fun f => commas f = 0) fs -> fields (join fs) = fs.
Proof.
  induction fs as [|f fs IH]; [contradiction|]. intros _ F. inversion F as [|? ? C F']; subst. destruct fs as [|g fs]; cbn [join]; [apply fields_one; exact C|].
  rewrite fields_cons by exact C. f_equal. apply IH; [discriminate|exact F'].
Qed.
Lemma join_app a b : a <> [] -> b <> [] -> join (a ++ b) = join a ++ 44 :: join b.
Proof.
  induction a as [|f a IH]; [contradiction|]. intros _ B. destruct a as [|g a]; cbn [app join].
  - destruct b; [contradiction|reflexivity].
  - specialize (IH ltac:(discriminate) B). change ((g :: a) ++ b) with (g :: (a ++ b)) in IH. change (f ++ 44 :: join (g :: (a ++ b)) = (f ++ 44 :: join (g :: a)) ++ 44 :: join b).
    rewrite IH. rewrite <- app_assoc. reflexivity.
Qed.

(** ** numbers *)
Local Open Scope R_scope.
Lemma d001_spec : dfin d001 = true /\ Rabs (dR d001 - 1 / 100) <= bpow radix2 (-60).
Proof.
  unfold d001. destruct (dofZ_exact 1 ltac:(lia)) as [F1 V1]. destruct (dofZ_exact 100 ltac:(lia)) as [F2 V2].
  destruct (ddiv_spec (dofZ 1) (dofZ 100)) as [F V].
  - exact F1.
  - rewrite V2. lra.
  - rewrite V1, V2. rewrite Rabs_right by lra. apply Rle_trans with (bpow radix2 0); [cbn; lra|apply bpow_le; lia].
  - split; [exact F|]. rewrite V, V1, V2. apply (rnd_err (1 / 100) (-6)); [lia|]. rewrite Rabs_right by lra. cbn. lra.
Qed.
Lemma d01_spec : dfin d01 = true /\ Rabs (dR d01 - 1 / 10) <= bpow radix2 (-57).
Proof.
  unfold d01. destruct (dofZ_exact 1 ltac:(lia)) as [F1 V1]. destruct (dofZ_exact 10 ltac:(lia)) as [F2 V2].
  destruct (ddiv_spec (dofZ 1) (dofZ 10)) as [F V].
  - exact F1.
  - rewrite V2. lra.
  - rewrite V1, V2. rewrite Rabs_right by lra. apply Rle_trans with (bpow radix2 0); [cbn; lra|apply bpow_le; lia].
  - split; [exact F|]. rewrite V, V1, V2. apply (rnd_err (1 / 10) (-3)); [lia|]. rewrite Rabs_right by lra. cbn. lra.
Qed.

Lemma mul_near x y k : dfin x = true -> dfin y = true -> (-1000 <= k <= 900)%Z -> Rabs (dR x * dR y) < bpow radix2 k ->
  dfin (dmul x y) = true /\ Rabs (dR (dmul x y) - dR x * dR y) <= bpow radix2 (k - 54).
Proof.
  intros FX FY K B. destruct (dmul_spec x y FX FY) as [F V].
  - apply Rle_trans with (bpow radix2 k); [apply Rlt_le; exact B|apply bpow_le; lia].
  - split; [exact F|]. rewrite V. apply rnd_err; [lia|exact B].
Qed.
Lemma div_near x y k : dfin x = true -> dR y <> 0 -> (-1000 <= k <= 900)%Z -> Rabs (dR x / dR y) < bpow radix2 k ->
  dfin (ddiv x y) = true /\ Rabs (dR (ddiv x y) - dR x / dR y) <= bpow radix2 (k - 54).
Proof.
  intros FX NY K B. destruct (ddiv_spec x y FX NY) as [F V].
  - apply Rle_trans with (bpow radix2 k); [apply Rlt_le; exact B|apply bpow_le; lia].
  - split; [exact F|]. rewrite V. apply rnd_err; [lia|exact B].
Qed.
Lemma droundd_spec y : dfin y = true -> Rabs (dR y) <= IZR (2 ^ 50) -> exists z r, droundd y = Some r /\ dround y = Some z /\ dfin r = true /\ dR r = IZR z /\ Rabs (IZR z - dR y) <= / 2.
Proof.
  intros F B. assert (F' := F). apply (dint_fin zra) in F'. destruct F' as (z & E). change (dint zra) with dround in E. pose proof (dround_close _ _ E) as C.
  assert (ZB : (Z.abs z <= 2 ^ 53)%Z).
  { apply Rabs_le_inv in B. apply Rabs_le_inv in C. assert (z < 2 ^ 50 + 1)%Z by (apply lt_IZR; rewrite plus_IZR; lra). assert (- 2 ^ 50 - 1 < z)%Z by (apply lt_IZR; rewrite minus_IZR, opp_IZR; lra). lia. }
  destruct (dofZ_exact z ZB) as [FZ VZ]. exists z, (dofZ z). unfold droundd. rewrite E. auto.
Qed.
Lemma tenths_ok n : (0 <= n < 65536)%Z -> tenths n (dmul (dofZ n) d01).
Proof.
  intros N. destruct (dofZ_exact n ltac:(lia)) as [FN VN]. destruct d01_spec as [FD VD]. assert (NR : 0 <= IZR n <= 65536) by (split; apply IZR_le; lia).
  assert (B57 : bpow radix2 (-57) = / 144115188075855872) by (bpv; lra). rewrite B57 in VD. apply Rabs_le_inv in VD.
  assert (D : Rabs (IZR n * dR d01 - IZR n / 10) <= 1 / 100000000).
  { replace (IZR n * dR d01 - IZR n / 10) with (IZR n * (dR d01 - 1 / 10)) by (unfold Rdiv; ring). rewrite Rabs_mult, (Rabs_pos_eq (IZR n)) by lra.
    apply Rle_trans with (65536 * (/ 144115188075855872)); [|lra]. apply Rmult_le_compat; [lra|apply Rabs_pos|lra|apply Rabs_le; lra]. }
  apply Rabs_le_inv in D. destruct (mul_near (dofZ n) d01 13 FN FD ltac:(lia)) as [F V].
  - rewrite VN. change (bpow radix2 13) with 8192. apply Rabs_def1; lra.
  - rewrite VN in V. change (13 - 54)%Z with (-41)%Z in V. assert (B41 : bpow radix2 (-41) = / 2199023255552) by (bpv; lra). rewrite B41 in V. apply Rabs_le_inv in V.
    split; [exact F|]. apply Rabs_le. lra.
Qed.
Lemma tenth_div z : (Z.abs z <= 100000)%Z -> forall r, dfin r = true -> dR r = IZR z -> dfin (ddiv r (dofZ 10)) = true /\ Rabs (dR (ddiv r (dofZ 10)) - IZR z / 10) <= 1 / 1000000.
Proof.
  intros Z r FR VR. destruct (dofZ_exact 10 ltac:(lia)) as [F10 V10]. assert (ZR : -100000 <= IZR z <= 100000) by (split; apply IZR_le; lia).
  destruct (div_near r (dofZ 10) 14 FR) as [F V]; [rewrite V10; lra|lia|rewrite VR, V10; change (bpow radix2 14) with 16384; apply Rabs_def1; lra|].
  split; [exact F|]. rewrite VR, V10 in V. change (14 - 54)%Z with (-40)%Z in V. assert (B40 : bpow radix2 (-40) = / 1099511627776) by (bpv; lra). rewrite B40 in V.
  eapply Rle_trans; [exact V|]. lra.
Qed.
Lemma dop_ok ff dop : (0 <= dop < 65536)%Z -> exists x, dop_text ff dop = ff 0%Z 1%Z x /\ dop_value dop x.
Proof.
  intros N. destruct (dofZ_exact (10 * dop) ltac:(lia)) as [FN VN]. destruct d001_spec as [FD VD].
  assert (NR : 0 <= IZR dop <= 65536) by (split; apply IZR_le; lia). rewrite mult_IZR in VN.
  assert (B60 : bpow radix2 (-60) = / 1152921504606846976) by (bpv; lra). rewrite B60 in VD. apply Rabs_le_inv in VD.
  assert (D : Rabs (10 * IZR dop * dR d001 - IZR dop / 10) <= 1 / 100000000).
  { replace (10 * IZR dop * dR d001 - IZR dop / 10) with (10 * IZR dop * (dR d001 - 1 / 100)) by (unfold Rdiv; field). rewrite Rabs_mult, (Rabs_pos_eq (10 * IZR dop)) by lra.
    apply Rle_trans with (655360 * (/ 1152921504606846976)); [|lra]. apply Rmult_le_compat; [lra|apply Rabs_pos|lra|apply Rabs_le; lra]. }
  apply Rabs_le_inv in D. destruct (mul_near (dofZ (10 * dop)) d001 13 FN FD ltac:(lia)) as [F V].
  - rewrite VN. change (bpow radix2 13) with 8192. apply Rabs_def1; lra.
  - rewrite VN in V. change (13 - 54)%Z with (-41)%Z in V. assert (B41 : bpow radix2 (-41) = / 2199023255552) by (bpv; lra). rewrite B41 in V. apply Rabs_le_inv in V.
    destruct (droundd_spec (dmul (dofZ (10 * dop)) d001) F) as (z & r & E & _ & FR & VR & C); [apply Rabs_le; change (IZR (2 ^ 50)) with 1125899906842624; lra|].
    apply Rabs_le_inv in C. assert (ZB : (-1 < z < 6555)%Z) by (split; apply lt_IZR; lra).
    destruct (tenth_div z ltac:(lia) r FR VR) as [FX VX]. exists (ddiv r (dofZ 10)). unfold dop_text. rewrite E. split; [reflexivity|]. split; [exact FX|]. split; [|exists z; exact VX].
    apply Rabs_le_inv in VX. apply Rabs_le. lra.
Qed.

Lemma split_ok x : ok_angle x -> exists d m, split_angle x = Some (d, m) /\ deg_min x d m.
Proof.
  intros [FX BX]. destruct (dofZ_exact 100000000 ltac:(lia)) as [F8 V8]. fold d1e8 in F8, V8. apply Rabs_le_inv in BX.
  destruct (mul_near x d1e8 36 FX F8 ltac:(lia)) as [FY VY]; [rewrite V8; change (bpow radix2 36) with 68719476736; apply Rabs_def1; lra|].
  rewrite V8 in VY. change (36 - 54)%Z with (-18)%Z in VY. assert (B18 : bpow radix2 (-18) = / 262144) by (bpv; lra). rewrite B18 in VY. apply Rabs_le_inv in VY.
  destruct (droundd_spec (dmul x d1e8) FY) as (z & r & E & _ & FR & VR & C); [apply Rabs_le; change (IZR (2 ^ 50)) with 1125899906842624; lra|]. apply Rabs_le_inv in C.
  set (n := Z.abs z). set (k := (n / 100000000)%Z). set (j := (n mod 100000000)%Z).
  assert (NK : n = (100000000 * k + j)%Z) by (apply Z.div_mod; lia). assert (J : (0 <= j < 100000000)%Z) by (apply Z.mod_pos_bound; lia).
  assert (ZB : (-36000000001 < z < 36000000001)%Z) by (split; apply lt_IZR; lra).
  assert (K : (0 <= k <= 360)%Z) by (unfold n in *; lia).
  assert (NR : IZR n = Rabs (IZR z)) by (unfold n; rewrite abs_IZR; reflexivity).
  assert (KR : 0 <= IZR k <= 360) by (split; apply IZR_le; lia). assert (JR : 0 <= IZR j <= 99999999) by (split; apply IZR_le; lia).
  assert (NE : IZR n = 100000000 * IZR k + IZR j) by (rewrite NK, plus_IZR, mult_IZR; lra).
  assert (ZR : -36000000001 <= IZR z <= 36000000001) by (split; apply IZR_le; lia).
  destruct (ddiv_spec r d1e8 FR) as [FQ VQ]; [rewrite V8; lra|rewrite VR, V8; apply Rle_trans with (bpow radix2 9); [change (bpow radix2 9) with 512; apply Rabs_le; lra|apply bpow_le; lia]|].
  rewrite VR, V8 in VQ. assert (EQ : Rabs (rnd (IZR z / 100000000) - IZR z / 100000000) <= bpow radix2 (9 - 54)) by (apply rnd_err; [lia|change (bpow radix2 9) with 512; apply Rabs_def1; lra]).
  change (9 - 54)%Z with (-45)%Z in EQ. assert (B45 : bpow radix2 (-45) = / 35184372088832) by (bpv; lra). rewrite B45 in EQ. apply Rabs_le_inv in EQ.
  destruct (dabs_spec (ddiv r d1e8) FQ) as [FA VA]. set (a := dabs (ddiv r d1e8)) in *. rewrite VQ in VA.
  assert (AN : IZR n / 100000000 - / 35184372088832 <= dR a <= IZR n / 100000000 + / 35184372088832 /\ IZR k <= dR a).
  { rewrite VA, NR. destruct (Rle_lt_dec 0 (IZR z)) as [P|P].
    - assert (GE : IZR k <= rnd (IZR z / 100000000)) by (apply rnd_ge_z; [lia|]; rewrite Rabs_pos_eq in NR by lra; lra). rewrite (Rabs_pos_eq (IZR z)) by lra. rewrite (Rabs_pos_eq (rnd _)) by lra. lra.
    - assert (LE : rnd (IZR z / 100000000) <= IZR (- k)) by (apply rnd_le_z; [lia|]; rewrite opp_IZR; rewrite Rabs_left in NR by lra; lra). rewrite opp_IZR in LE.
      rewrite (Rabs_left (IZR z)) by lra. rewrite (Rabs_left1 (rnd _)) by lra. lra. }
  destruct AN as [[A1 A2] A3]. rewrite NE in A1, A2.
  assert (TR : Ztrunc (dR a) = k). { rewrite Ztrunc_floor by lra. apply Zfloor_imp. rewrite plus_IZR. lra. }
  unfold split_angle. rewrite E. fold a. assert (LE : dleb a (dofZ 65535) = true).
  { destruct (dofZ_exact 65535 ltac:(lia)) as [FF VF]. unfold dleb. rewrite Bcompare_correct by assumption. fold (dR a). fold (dR (dofZ 65535)). rewrite VF. destruct (Rcompare_spec (dR a) 65535); try reflexivity. exfalso. lra. }
  rewrite LE, (dtrunc_spec a FA), TR. exists k. eexists. split; [reflexivity|].
  destruct (dofZ_exact k ltac:(lia)) as [FK VK]. destruct (dofZ_exact 60 ltac:(lia)) as [F60 V60].
  destruct (dsub_spec a (dofZ k) FA FK) as [FS VS]; [rewrite VK; apply Rle_trans with (bpow radix2 1); [change (bpow radix2 1) with 2; apply Rabs_le; lra|apply bpow_le; lia]|].
  assert (ES : Rabs (rnd (dR a - IZR k) - (dR a - IZR k)) <= bpow radix2 (1 - 54)) by (apply rnd_err; [lia|change (bpow radix2 1) with 2; apply Rabs_def1; lra]).
  change (1 - 54)%Z with (-53)%Z in ES. assert (B53 : bpow radix2 (-53) = / 9007199254740992) by (bpv; lra). rewrite B53 in ES. apply Rabs_le_inv in ES. rewrite VK in VS.
  assert (S0 : 0 <= dR (dsub a (dofZ k))) by (rewrite VS; apply (rnd_ge_z _ 0); [lia|lra]).
  set (f := dsub a (dofZ k)) in *. rewrite <- VS in ES.
  destruct (dmul_spec f (dofZ 60) FS F60) as [FM VM]; [rewrite V60; apply Rle_trans with (bpow radix2 6); [change (bpow radix2 6) with 64; apply Rabs_le; lra|apply bpow_le; lia]|].
  assert (EM : Rabs (rnd (dR f * 60) - dR f * 60) <= bpow radix2 (6 - 54)) by (apply rnd_err; [lia|change (bpow radix2 6) with 64; apply Rabs_def1; lra]).
  change (6 - 54)%Z with (-48)%Z in EM. assert (B48 : bpow radix2 (-48) = / 281474976710656) by (bpv; lra). rewrite B48 in EM. apply Rabs_le_inv in EM. rewrite V60 in VM.
  assert (M0 : 0 <= dR (dmul f (dofZ 60))) by (rewrite VM; apply (rnd_ge_z _ 0); [lia|lra]). rewrite <- VM in EM.
  split; [exact FM|]. split; [lra|]. split; [exact K|].
  assert (AX : Rabs (Rabs (dR x) - IZR n / 100000000) <= (1 / 2 + / 262144) / 100000000).
  { rewrite NR. apply Rle_trans with (Rabs (dR x - IZR z / 100000000)).
    - replace (Rabs (IZR z) / 100000000) with (Rabs (IZR z / 100000000)) by (unfold Rdiv; rewrite Rabs_mult, (Rabs_pos_eq (/ 100000000)) by lra; reflexivity). apply Rabs_triang_inv2.
    - apply Rabs_le. lra. }
  rewrite NE in AX. apply Rabs_le_inv in AX. apply Rabs_le. lra.
Qed.

Lemma yaw_up_spec f : forall y, (- 360000000 * Z.of_nat f <= y)%Z -> (0 <= yaw_up f y /\ (y < 0 -> yaw_up f y < 360000000) /\ (0 <= y -> yaw_up f y = y) /\ exists k, yaw_up f y = y + 360000000 * k)%Z.
Proof.
  induction f as [|f IH]; intros y H; cbn [yaw_up].
  - split; [lia|]. split; [lia|]. split; [auto|]. exists 0%Z. lia.
  - destruct (Z.ltb_spec y 0) as [L|L]; [|split; [exact L|]; split; [lia|]; split; [auto|]; exists 0%Z; lia].
    destruct (IH (y + 360000000)%Z ltac:(lia)) as (A & B & C & k & D). split; [exact A|]. split; [|split; [lia|exists (k + 1)%Z; lia]].
    intros _. destruct (Z.ltb_spec (y + 360000000) 0); [apply B; assumption|]. rewrite C by lia. lia.
Qed.
Lemma yaw_down_spec f : forall y, (0 <= y <= 360000000 * (Z.of_nat f + 1))%Z -> (0 <= yaw_down f y <= 360000000 /\ exists k, yaw_down f y = y + 360000000 * k)%Z.
Proof.
  induction f as [|f IH]; intros y H; cbn [yaw_down].
  - split; [lia|]. exists 0%Z. lia.
  - destruct (Z.ltb_spec 360000000 y) as [L|L]; [|split; [lia|]; exists 0%Z; lia]. destruct (IH (y - 360000000)%Z ltac:(lia)) as (A & k & D). split; [exact A|]. exists (k - 1)%Z. lia.
Qed.
Lemma dleb_spec x y : dfin x = true -> dfin y = true -> dleb x y = Rle_bool (dR x) (dR y).
Proof.
  intros FX FY. unfold dleb. rewrite Bcompare_correct by assumption. fold (dR x). fold (dR y). unfold Rle_bool. destruct (Rcompare (dR x) (dR y)); reflexivity.
Qed.
Lemma yaw_ok yaw : (- 2 ^ 31 <= yaw < 2 ^ 31)%Z -> heading_value yaw (yaw_deg yaw).
Proof.
  intros Y. destruct (yaw_up_spec 8 yaw ltac:(lia)) as (A & B & C & k1 & D1). set (u := yaw_up 8 yaw) in *.
  assert (U : (0 <= u <= 360000000 * (Z.of_nat 8 + 1))%Z) by (destruct (Z.ltb_spec yaw 0); [specialize (B ltac:(lia))|rewrite C by lia]; lia).
  destruct (yaw_down_spec 8 u U) as (E & k2 & D2). unfold yaw_deg. fold u. set (y := yaw_down 8 u) in *.
  assert (YK : y = (yaw + 360000000 * (k1 + k2))%Z) by lia. assert (YR : IZR y / 1000000 = IZR yaw / 1000000 + 360 * IZR (k1 + k2)) by (rewrite YK, plus_IZR, mult_IZR; lra).
  assert (Y0 : 0 <= IZR y <= 360000000) by (split; apply IZR_le; lia).
  destruct (dofZ_exact y ltac:(lia)) as [FY VY]. destruct (dofZ_exact 1000000 ltac:(lia)) as [F6 V6].
  destruct (ddiv_spec (dofZ y) (dofZ 1000000) FY) as [FD VD]; [rewrite V6; lra|rewrite VY, V6; apply Rle_trans with (bpow radix2 9); [change (bpow radix2 9) with 512; apply Rabs_le; lra|apply bpow_le; lia]|].
  rewrite VY, V6 in VD. assert (ED : Rabs (rnd (IZR y / 1000000) - IZR y / 1000000) <= bpow radix2 (9 - 54)) by (apply rnd_err; [lia|change (bpow radix2 9) with 512; apply Rabs_def1; lra]).
  change (9 - 54)%Z with (-45)%Z in ED. assert (B45 : bpow radix2 (-45) = / 35184372088832) by (bpv; lra). rewrite B45 in ED. apply Rabs_le_inv in ED.
  destruct (dofZ_exact 359995 ltac:(lia)) as [FN VN]. destruct (dofZ_exact 1000 ltac:(lia)) as [FM VM].
  destruct (ddiv_spec (dofZ 359995) (dofZ 1000) FN) as [FL VL]; [rewrite VM; lra|rewrite VN, VM; apply Rle_trans with (bpow radix2 9); [change (bpow radix2 9) with 512; apply Rabs_le; lra|apply bpow_le; lia]|].
  rewrite VN, VM in VL. cbv zeta. unfold d359995. rewrite dleb_spec by assumption. rewrite VL, VD.
  destruct (Rle_bool_spec (rnd (359995 / 1000)) (rnd (IZR y / 1000000))) as [G|G].
  - destruct (dofZ_exact 0 ltac:(lia)) as [F0 V0]. fold dzero in F0, V0. split; [exact F0|]. rewrite V0. split; [lra|]. exists (k1 + k2 - 1)%Z. rewrite minus_IZR.
    assert (EL : Rabs (rnd (359995 / 1000) - 359995 / 1000) <= bpow radix2 (9 - 54)) by (apply rnd_err; [lia|change (bpow radix2 9) with 512; apply Rabs_def1; lra]).
    change (9 - 54)%Z with (-45)%Z in EL. rewrite B45 in EL. apply Rabs_le_inv in EL. apply Rabs_le. lra.
  - assert (YL : (y < 359995000)%Z).
    { destruct (Z_lt_le_dec y 359995000) as [|Q]; [assumption|]. exfalso. assert (359995000 <= IZR y) by (apply IZR_le; exact Q). assert (HH : rnd (359995 / 1000) <= rnd (IZR y / 1000000)) by (apply rnd_le; lra). lra. }
    assert (IZR y <= 359994999) by (apply IZR_le; lia). assert (0 <= rnd (IZR y / 1000000)) by (apply (rnd_ge_z _ 0); [lia|lra]).
    split; [exact FD|]. rewrite VD. split; [lra|]. exists (k1 + k2)%Z. rewrite <- YR. apply Rabs_le. lra.
Qed.

(** the course over ground *)
Definition cog_range (c : dbl) : Prop := dfin c = true /\ 0 <= dR c < 35995 / 100.
Lemma zero_range : cog_range dzero.
Proof. destruct (dofZ_exact 0 ltac:(lia)) as [F0 V0]. fold dzero in F0, V0. split; [exact F0|]. rewrite V0. lra. Qed.
Definition cog_of (c : dbl) : dbl :=
  let c := if dltb c dzero then dadd c (dofZ 360) else c in
  let c := match droundd (dmul c (dofZ 10)) with Some r => ddiv r (dofZ 10) | None => c end in
  if dltb (dabs (dsub (dofZ 360) c)) (ddiv (dofZ 1) (dofZ 10)) then dzero else c.
Lemma cog_of_ok c : dfin c = true -> Rabs (dR c) <= 180 -> cog_range (cog_of c) /\ exists k, Rabs (dR (cog_of c) - (dR c + 360 * IZR k)) <= 51 / 1000.
Proof.
  intros FC BC. apply Rabs_le_inv in BC. destruct (dofZ_exact 0 ltac:(lia)) as [F0 V0]. fold dzero in F0, V0. destruct (dofZ_exact 360 ltac:(lia)) as [F3 V3]. destruct (dofZ_exact 10 ltac:(lia)) as [F10 V10].
  destruct (dofZ_exact 1 ltac:(lia)) as [F1 V1].
  set (p := if dltb c dzero then dadd c (dofZ 360) else c).
  assert (P : dfin p = true /\ 0 <= dR p <= 360 /\ exists k, Rabs (dR p - (dR c + 360 * IZR k)) <= / 1000000).
  { unfold p. rewrite dltb_spec by assumption. rewrite V0. destruct (Rlt_bool_spec (dR c) 0) as [N|N].
    - destruct (dadd_spec c (dofZ 360) FC F3) as [F V]; [rewrite V3; apply Rle_trans with (bpow radix2 10); [change (bpow radix2 10) with 1024; apply Rabs_le; lra|apply bpow_le; lia]|].
      rewrite V3 in V. split; [exact F|]. split.
      + rewrite V. split; [apply (rnd_ge_z _ 0); [lia|lra]|apply (rnd_le_z _ 360); [lia|lra]].
      + exists 1%Z. rewrite V. assert (E : Rabs (rnd (dR c + 360) - (dR c + 360)) <= bpow radix2 (10 - 54)) by (apply rnd_err; [lia|change (bpow radix2 10) with 1024; apply Rabs_def1; lra]).
        change (10 - 54)%Z with (-44)%Z in E. assert (B44 : bpow radix2 (-44) = / 17592186044416) by (bpv; lra). rewrite B44 in E. apply Rabs_le_inv in E. apply Rabs_le. lra.
    - split; [exact FC|]. split; [lra|]. exists 0%Z. apply Rabs_le. lra. }
  destruct P as (FP & BP & k & EP). apply Rabs_le_inv in EP.
  destruct (mul_near p (dofZ 10) 12 FP F10 ltac:(lia)) as [FM VM]; [rewrite V10; change (bpow radix2 12) with 4096; apply Rabs_def1; lra|]. rewrite V10 in VM. change (12 - 54)%Z with (-42)%Z in VM.
  assert (B42 : bpow radix2 (-42) = / 4398046511104) by (bpv; lra). rewrite B42 in VM. apply Rabs_le_inv in VM.
  destruct (droundd_spec (dmul p (dofZ 10)) FM) as (z & r & E & EZ0 & FR & VR & C); [apply Rabs_le; change (IZR (2 ^ 50)) with 1125899906842624; lra|]. apply Rabs_le_inv in C.
  assert (ZB : (-1 < z < 3601)%Z) by (split; apply lt_IZR; lra). assert (ZR : 0 <= IZR z <= 3600) by (split; apply IZR_le; lia).
  assert (Q : dfin (ddiv r (dofZ 10)) = true /\ dR (ddiv r (dofZ 10)) = rnd (IZR z / 10)).
  { destruct (ddiv_spec r (dofZ 10) FR) as [F V]; [rewrite V10; lra|rewrite VR, V10; apply Rle_trans with (bpow radix2 9); [change (bpow radix2 9) with 512; apply Rabs_le; lra|apply bpow_le; lia]|].
    rewrite VR, V10 in V. auto. }
  destruct Q as [FQ VQ]. assert (EQ : Rabs (rnd (IZR z / 10) - IZR z / 10) <= bpow radix2 (9 - 54)) by (apply rnd_err; [lia|change (bpow radix2 9) with 512; apply Rabs_def1; lra]).
  change (9 - 54)%Z with (-45)%Z in EQ. assert (B45 : bpow radix2 (-45) = / 35184372088832) by (bpv; lra). rewrite B45 in EQ. apply Rabs_le_inv in EQ.
  assert (Q0 : 0 <= rnd (IZR z / 10)) by (apply (rnd_ge_z _ 0); [lia|lra]).
  unfold cog_of. fold p. cbv zeta. rewrite E.
  assert (RZ : r = dofZ z) by (unfold droundd in E; rewrite EZ0 in E; congruence).
  destruct (Z.eq_dec z 3599) as [Z9|Z9].
  { assert (CMP : dltb (dabs (dsub (dofZ 360) (ddiv r (dofZ 10)))) (ddiv (dofZ 1) (dofZ 10)) = false) by (rewrite RZ, Z9; vm_compute; reflexivity).
    rewrite CMP. assert (IZR z = 3599) by (rewrite Z9; reflexivity). split; [split; [exact FQ|]; rewrite VQ; lra|]. exists k. rewrite VQ. apply Rabs_le. lra. }
  set (q := ddiv r (dofZ 10)) in *.
  destruct (dsub_spec (dofZ 360) q F3 FQ) as [FS VS]; [rewrite V3, VQ; apply Rle_trans with (bpow radix2 10); [change (bpow radix2 10) with 1024; apply Rabs_le; lra|apply bpow_le; lia]|]. rewrite V3, VQ in VS.
  destruct (dabs_spec _ FS) as [FA VA]. rewrite VS in VA.
  destruct (ddiv_spec (dofZ 1) (dofZ 10) F1) as [FD VD]; [rewrite V10; lra|rewrite V1, V10; apply Rle_trans with (bpow radix2 9); [change (bpow radix2 9) with 512; apply Rabs_le; lra|apply bpow_le; lia]|]. rewrite V1, V10 in VD.
  rewrite dltb_spec by assumption. rewrite VA, VD.
  assert (EZ : Rabs (rnd (360 - rnd (IZR z / 10)) - (360 - rnd (IZR z / 10))) <= bpow radix2 (10 - 54)) by (apply rnd_err; [lia|change (bpow radix2 10) with 1024; apply Rabs_def1; lra]).
  change (10 - 54)%Z with (-44)%Z in EZ. assert (B44 : bpow radix2 (-44) = / 17592186044416) by (bpv; lra). rewrite B44 in EZ. apply Rabs_le_inv in EZ.
  assert (ET : Rabs (rnd (1 / 10) - 1 / 10) <= bpow radix2 (0 - 54)) by (apply rnd_err; [lia|change (bpow radix2 0) with 1; apply Rabs_def1; lra]).
  change (0 - 54)%Z with (-54)%Z in ET. assert (B54 : bpow radix2 (-54) = / 18014398509481984) by (bpv; lra). rewrite B54 in ET. apply Rabs_le_inv in ET.
  destruct (Rlt_bool_spec (Rabs (rnd (360 - rnd (IZR z / 10)))) (rnd (1 / 10))) as [G|G].
  - split; [exact zero_range|]. exists (k - 1)%Z. rewrite V0, minus_IZR. assert (3598 < z)%Z by (apply lt_IZR; apply Rabs_def2 in G; lra).
    assert (IZR z = 3600) by (replace z with 3600%Z by lia; reflexivity). apply Rabs_le. lra.
  - assert (z <> 3600%Z). { intros ->. replace (3600 / 10) with (IZR 360) in G by lra. rewrite (rnd_id (IZR 360)) in G by (apply int_format; lia). replace (360 - IZR 360) with (IZR 0) in G by lra. rewrite (rnd_id (IZR 0)) in G by (apply int_format; lia). rewrite Rabs_R0 in G. lra. }
    assert (IZR z <= 3599) by (apply IZR_le; lia). split; [split; [exact FQ|]; rewrite VQ; lra|]. exists k. rewrite VQ. apply Rabs_le. lra.
Qed.
