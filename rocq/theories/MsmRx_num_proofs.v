(** C78: the numbers of one MSM cell, from the payload fields to the SBP observation *)
From Coq Require Import Reals Lra.
From Flocq Require Import Core IEEE754.Binary IEEE754.Bits.
From Verif Require Import Base Bits_model RtcmLegacy_model RtcmMsm_model RtcmMsm_spec Signals_model Double_model Double_proofs Esf_model Esf_proofs Ixcom_model Ixcom_float_proofs Tables_proofs UbxObs_proofs NmeaFields_proofs Near_proofs SbpEph_spec Exact_proofs
  MsmWire_spec MsmWire_proofs MsmVal_model MsmVal_spec MsmVal_proofs Abs_proofs Options_model.
Open Scope R_scope.

Lemma rough_any i z r : (0 <= z <= 261120)%Z -> dexact (rough_ms (mkrsat (z / 1024) i (z mod 1024) r)) (scaled z 10).
Proof.
  intros Z. unfold rough_ms. cbn [r_int r_mod]. assert (D := Z.div_mod z 1024 ltac:(lia)). assert (M := Z.mod_pos_bound z 1024 ltac:(lia)).
  replace z with ((z / 1024) * 2 ^ 10 + z mod 1024)%Z at 3 by lia. apply ex_add; [apply ex_Zk; lia|apply (ex_div (z mod 1024) 10); lia|lia|].
  change (2 ^ 10)%Z with 1024%Z. lia.
Qed.
Lemma fine_any k z F rough : (10 <= k <= 31)%Z -> (0 <= z <= 261120)%Z -> (Z.abs F <= 2 ^ 24)%Z -> dexact rough (scaled z 10) ->
  dexact (dadd rough (dmul (dofZ F) (P2 k))) (scaled (z * 2 ^ (k - 10) + F) k).
Proof.
  intros K Z HF R. assert (P : (2 ^ (k - 10) <= 2 ^ 21)%Z) by (apply Z.pow_le_mono_r; lia). assert (0 < 2 ^ (k - 10))%Z by (apply Z.pow_pos_nonneg; lia).
  apply ex_add; [| |lia|nia].
  - replace k with (10 + (k - 10))%Z at 2 by lia. rewrite <- scaled_up by lia. exact R.
  - replace F with (F * 1)%Z at 2 by lia. apply ex_mul2; [apply ex_Z; lia|apply P2_ex; lia|lia|lia].
Qed.
Lemma scaled_real z F k : (10 <= k)%Z -> scaled (z * 2 ^ (k - 10) + F) k = IZR z / 1024 + IZR F / IZR (2 ^ k).
Proof.
  intros K. unfold scaled. rewrite plus_IZR, mult_IZR, !pow_bpow by lia. rewrite Rmult_plus_distr_r, Rmult_assoc, <- bpow_plus.
  replace (k - 10 + - k)%Z with (-10)%Z by lia. rewrite bpow_opp. unfold Rdiv. f_equal.
Qed.
Lemma rnd32_small x : Rabs x <= 800 -> Rabs (rnd32 x - x) <= / 20000.
Proof.
  intros B. destruct (Rle_dec (bpow radix2 (-120)) (Rabs x)) as [L|L].
  - destruct (rnd32_near x (or_intror L)) as (d & D & ->). replace (x * (1 + d) - x) with (x * d) by ring. rewrite Rabs_mult.
    apply Rle_trans with (800 * u24); [apply Rmult_le_compat; try apply Rabs_pos; assumption|]. unfold u24. bpn. lra.
  - assert (G : generic_format radix2 (FLT_exp (-149) 24) (bpow radix2 (-120))) by (apply generic_format_bpow; unfold FLT_exp; lia).
    assert (A : Rabs (rnd32 x) <= bpow radix2 (-120)) by (unfold rnd32; apply (@abs_round_le_generic radix2 (FLT_exp (-149) 24) (@FLT_exp_valid (-149) 24 eq_refl) ZnearestE _); [exact G|lra]).
    assert (S : bpow radix2 (-120) <= / 100000) by (apply Rle_trans with (bpow radix2 (-20)); [apply bpow_le; lia|bpn; lra]).
    eapply Rle_trans; [apply Rabs_triang|]. rewrite Rabs_Ropp. lra.
Qed.
Lemma channel_ab fcn b : (0 <= fcn <= 15)%Z -> ffin b = true -> Rabs (fR b) <= 100 ->
  ab (channel_bias fcn b) (IZR (fcn - 7) * fR b) (/ 20000) /\ Rabs (IZR (fcn - 7) * fR b) <= 800.
Proof.
  intros R F B. unfold channel_bias, MSM_GLO_FCN_OFFSET. destruct (fofZ_int (fcn - 7) ltac:(lia)) as [F1 V1].
  assert (M : Rabs (IZR (fcn - 7)) <= 8) by (rewrite <- abs_IZR; apply (IZR_le _ 8); lia).
  assert (P : Rabs (IZR (fcn - 7) * fR b) <= 800) by (rewrite Rabs_mult; replace 800 with (8 * 100) by lra; apply Rmult_le_compat; try apply Rabs_pos; assumption).
  destruct (fmul_spec (fofZ (fcn - 7) 0) b F1 F) as [F2 V2]. { rewrite V1. eapply Rle_trans; [exact P|]. apply Rle_trans with (bpow radix2 10); [bpn; lra|apply bpow_le; lia]. }
  rewrite V1 in V2. destruct (dofflt_exact _ F2) as [F3 V3]. split; [|exact P]. split; [exact F3|]. rewrite V3. fold (fR (fmul (fofZ (fcn - 7) 0) b)). rewrite V2. apply rnd32_small. lra.
Qed.
Lemma float_ab b : ffin b = true -> ab (dofflt b) (fR b) 0.
Proof. intros F. destruct (dofflt_exact _ F) as [F3 V3]. split; [exact F3|]. rewrite V3. unfold fR. rewrite Rminus_diag_eq, Rabs_R0 by reflexivity. lra. Qed.
Lemma conv_in lo hi z : (lo <= z <= hi)%Z -> conv lo hi (Some z) = Some z.
Proof. intros H. cbn [conv]. replace ((lo <=? z) && (z <=? hi))%Z with true by lia. reflexivity. Qed.

Lemma range_num x y sb cb vs vc : dexact x y -> -1 <= y <= 256 -> ab sb vs 0 -> Rabs vs <= 1000000 -> ab cb vc (/ 20000) -> Rabs vc <= 800 ->
  0 <= y * (299792458 / 1000) + vs + vc ->
  exists P, conv 0 (2 ^ 32 - 1) (drint (dmul (dadd (dadd (ddiv (dmul x GPS_C) (dofZ 1000)) sb) cb) (dofZ 50))) = Some P /\ (0 <= P < 2 ^ 32)%Z /\
    Rabs (IZR P / 50 - (y * (299792458 / 1000) + vs + vc)) <= / 100 + / 10000.
Proof.
  intros X Y S VS C VC POS. apply ab_exact in X. unfold GPS_C. apply Rabs_le_inv in VS. apply Rabs_le_inv in VC.
  assert (Z1 := ab_Z 299792458 ltac:(lia)). assert (Z2 := ab_Z 1000 ltac:(lia)). assert (Z3 := ab_Z 50 ltac:(lia)).
  assert (M1 : ab (dmul x (dofZ 299792458)) (y * 299792458) (bpow radix2 (37 - 54))).
  { apply (ab_mul 37 256 299792458 _ _ _ _ 0 0); [exact X|exact Z1|lia|apply Rabs_le; lra|apply Rabs_le; lra|bpn; lra|lra]. }
  assert (M2 : ab (ddiv (dmul x (dofZ 299792458)) (dofZ 1000)) (y * 299792458 / 1000) (/ 40000000)).
  { apply (ab_div 27 (256 * 299792458) (/ 1000) _ _ _ _ _ 0 _ M1 Z2); [lia|apply Rabs_le; lra|lra|lra|lra|bpn; lra|bpn; lra]. }
  assert (M3 : ab (dadd (ddiv (dmul x (dofZ 299792458)) (dofZ 1000)) sb) (y * 299792458 / 1000 + vs) (/ 20000000)).
  { apply (ab_add 27 78000000 _ _ _ _ _ _ _ M2 S); [lia|apply Rabs_le; lra|bpn; lra|bpn; lra]. }
  assert (M4 : ab (dadd (dadd (ddiv (dmul x (dofZ 299792458)) (dofZ 1000)) sb) cb) (y * 299792458 / 1000 + vs + vc) (/ 19900)).
  { apply (ab_add 27 78001000 _ _ _ _ _ _ _ M3 C); [lia|apply Rabs_le; lra|bpn; lra|bpn; lra]. }
  assert (M5 : ab (dmul (dadd (dadd (ddiv (dmul x (dofZ 299792458)) (dofZ 1000)) sb) cb) (dofZ 50)) ((y * 299792458 / 1000 + vs + vc) * 50) (/ 390)).
  { apply (ab_mul 32 78001000 50 _ _ _ _ _ _ _ M4 Z3); [lia|apply Rabs_le; lra|apply Rabs_le; lra|bpn; lra|bpn; lra]. }
  destruct (ab_rint _ _ _ M5) as (P & -> & B). apply Rabs_le_inv in B.
  assert (PR : (0 <= P < 2 ^ 32)%Z).
  { split; [apply (Zle_half _ _ (3/4)); [|lra]; cbn; lra|]. enough (P <= 3900100000)%Z by lia. apply (Zle_half _ _ (3/4)); [|lra]. lra. }
  exists P. split; [apply conv_in; lia|]. split; [exact PR|]. apply Rabs_le. lra.
Qed.
Lemma split_num lo hi x v e : ab x v e -> (-2 ^ 40 <= lo /\ hi <= 2 ^ 40)%Z -> IZR lo <= v - e -> v + e < IZR hi + 1 ->
  exists i f, split256 lo hi x = Some (i, f) /\ (lo <= i <= hi + 1)%Z /\ (0 <= f < 256)%Z /\ Rabs (IZR i + IZR f / 256 - v) <= / 512 + e + / 1000000000.
Proof.
  intros AB HB L1 L2. pose proof (ab_iv _ _ _ AB) as IV. destruct AB as [F _]. unfold split256. rewrite dfloor_spec by exact F. set (i := Zfloor (dR x)).
  assert (I1 : IZR i <= dR x) by apply Zfloor_lb. assert (I2 : dR x < IZR i + 1) by apply Zfloor_ub.
  assert (ib : (lo <= i <= hi)%Z). { split; [unfold i; apply Zfloor_lub; lra|]. apply Z.lt_succ_r. apply lt_IZR. unfold Z.succ. rewrite plus_IZR. lra. }
  clearbody i. rewrite conv_in by exact ib.
  assert (AX : ab x (dR x) 0) by (split; [exact F|rewrite Rminus_diag_eq, Rabs_R0 by reflexivity; lra]).
  assert (AI := ab_Z i ltac:(lia)). assert (Z2 := ab_Z 256 ltac:(lia)).
  assert (M1 : ab (dsub x (dofZ i)) (dR x - IZR i) (bpow radix2 (1 - 54))) by (apply (ab_sub 1 1 _ _ _ _ 0 0); [exact AX|exact AI|lia|apply Rabs_le; lra|bpn; lra|lra]).
  assert (M2 : ab (dmul (dsub x (dofZ i)) (dofZ 256)) ((dR x - IZR i) * 256) (/ 10000000000)).
  { apply (ab_mul 9 1 256 _ _ _ _ _ _ _ M1 Z2); [lia|apply Rabs_le; lra|apply Rabs_le; lra|bpn; lra|bpn; lra]. }
  destruct (ab_rint _ _ _ M2) as (f & -> & B). apply Rabs_le_inv in B.
  assert (FB : (0 <= f <= 256)%Z) by (split; apply (Zle_half _ _ (3/4)); try lra; cbn; lra).
  rewrite conv_in by lia. destruct (Z.eqb_spec f 256) as [E|E].
  - exists (i + 1)%Z, 0%Z. split; [reflexivity|]. split; [lia|]. split; [lia|]. rewrite plus_IZR. subst f. apply Rabs_le. lra.
  - exists i, (f mod 256)%Z. split; [reflexivity|]. split; [lia|]. rewrite Z.mod_small by lia. split; [lia|]. apply Rabs_le. lra.
Qed.
Lemma phase_num x y f fr pb vp : dexact x y -> -1 <= y <= 256 -> (1100000000 <= f <= 1700000000)%Z -> dexact fr (scaled f 0) -> ab pb vp (/ 20000) -> Rabs vp <= 800 ->
  exists i j, split256 (- 2 ^ 31) (2 ^ 31 - 1) (dadd (ddiv (dmul x fr) (dofZ 1000)) pb) = Some (i, j) /\ (i <= 2 ^ 31 - 1)%Z /\ (0 <= j < 256)%Z /\
    Rabs (IZR i + IZR j / 256 - (y * (IZR f / 1000) + vp)) <= / 512 + / 10000.
Proof.
  intros X Y Hf Hfr C VC. destruct (fr_R f fr Hf Hfr) as (_ & _ & HF). apply ab_exact in X. apply ab_exact in Hfr. rewrite scaled_0 in Hfr. apply Rabs_le_inv in VC.
  assert (Z2 := ab_Z 1000 ltac:(lia)).
  assert (XB : Rabs (y * IZR f) <= 256 * 1700000000) by (rewrite Rabs_mult; apply Rmult_le_compat; try apply Rabs_pos; apply Rabs_le; lra).
  assert (M1 : ab (dmul x fr) (y * IZR f) (bpow radix2 (39 - 54))).
  { apply (ab_mul 39 256 1700000000 _ _ _ _ 0 0); [exact X|exact Hfr|lia|apply Rabs_le; lra|apply Rabs_le; lra|bpn; lra|lra]. }
  assert (M2 : ab (ddiv (dmul x fr) (dofZ 1000)) (y * IZR f / 1000) (/ 9000000)).
  { apply (ab_div 29 (256 * 1700000000) (/ 1000) _ _ _ _ _ 0 _ M1 Z2); [lia|exact XB|lra|lra|lra|bpn; lra|bpn; lra]. }
  apply Rabs_le_inv in XB.
  assert (M3 : ab (dadd (ddiv (dmul x fr) (dofZ 1000)) pb) (y * IZR f / 1000 + vp) (/ 19000)).
  { apply (ab_add 29 435201000 _ _ _ _ _ _ _ M2 C); [lia|apply Rabs_le; lra|bpn; lra|bpn; lra]. }
  destruct (split_num (- 2 ^ 31) (2 ^ 31 - 1) _ _ _ M3) as (i & j & E & B1 & B2 & B3); [lia| | |].
  - change (IZR (- 2 ^ 31)) with (-2147483648). lra.
  - change (IZR (2 ^ 31 - 1)) with 2147483647. lra.
  - exists i, j. split; [exact E|]. apply Rabs_le_inv in B3. split; [|split; [exact B2|apply Rabs_le; lra]].
    assert (JB : 0 <= IZR j) by (apply (IZR_le 0); lia). enough (i <= 1000000000)%Z by lia. apply (Zle_half _ _ (3/4)); lra.
Qed.
Lemma rate_num r d f fr : (Z.abs r <= 8191)%Z -> (Z.abs d <= 16383)%Z -> (1100000000 <= f <= 1700000000)%Z -> dexact fr (scaled f 0) ->
  let v := - (IZR r + IZR d / 10000) * (IZR f / 299792458) in Rabs v <= 32760 ->
  exists i j, split256 (- 2 ^ 15) (2 ^ 15 - 1) (ddiv (dmul (dopp (dadd (dofZ r) (dmul (dofZ d) d1e_4))) fr) GPS_C) = Some (i, j) /\ (- 2 ^ 15 <= i < 2 ^ 15)%Z /\ (0 <= j < 256)%Z /\
    Rabs (IZR i + IZR j / 256 - v) <= / 512 + / 1000000.
Proof.
  cbv zeta. intros HR HD Hf Hfr V. destruct (fr_R f fr Hf Hfr) as (_ & _ & HF). apply ab_exact in Hfr. rewrite scaled_0 in Hfr. apply Rabs_le_inv in V.
  assert (Z2 := ab_Z 299792458 ltac:(lia)). assert (ZR := ab_Z r ltac:(lia)). assert (ZD := ab_Z d ltac:(lia)).
  assert (Z1 : ab d1e_4 (/ 10000) (/ 100000000000000000000)) by (exact d1e_4_spec).
  assert (RB : -8191 <= IZR r <= 8191) by (split; [apply (IZR_le (-8191))|apply (IZR_le _ 8191)]; lia).
  assert (DB : -16383 <= IZR d <= 16383) by (split; [apply (IZR_le (-16383))|apply (IZR_le _ 16383)]; lia).
  assert (M1 : ab (dmul (dofZ d) d1e_4) (IZR d * / 10000) (/ 1000000000000000)).
  { apply (ab_mul 1 16383 (/ 10000) _ _ _ _ _ _ _ ZD Z1); [lia|apply Rabs_le; lra|apply Rabs_le; lra|bpn; lra|bpn; lra]. }
  assert (M2 : ab (dadd (dofZ r) (dmul (dofZ d) d1e_4)) (IZR r + IZR d * / 10000) (/ 1000000000000)).
  { apply (ab_add 14 8193 _ _ _ _ _ _ _ ZR M1); [lia|apply Rabs_le; lra|bpn; lra|bpn; lra]. }
  assert (M3 : ab (dopp (dadd (dofZ r) (dmul (dofZ d) d1e_4))) (- (IZR r + IZR d * / 10000)) (/ 1000000000000)).
  { destruct M2 as [F B]. destruct (dopp_spec _ F) as [FO VO]. split; [exact FO|]. rewrite VO. replace (_ - _) with (- (dR (dadd (dofZ r) (dmul (dofZ d) d1e_4)) - (IZR r + IZR d * / 10000))) by ring. rewrite Rabs_Ropp. exact B. }
  set (x := dopp _) in *. clearbody x. set (u := - (IZR r + IZR d * / 10000)) in *.
  assert (UB : Rabs u <= 8193) by (unfold u; apply Rabs_le; lra).
  assert (UE : - (IZR r + IZR d / 10000) = u) by (unfold u; lra). rewrite UE in *. clearbody u.
  assert (XB : Rabs (u * IZR f) <= 8193 * 1700000000) by (rewrite Rabs_mult; apply Rmult_le_compat; try apply Rabs_pos; [exact UB|apply Rabs_le; lra]).
  assert (M4 : ab (dmul x fr) (u * IZR f) (/ 300)).
  { apply (ab_mul 44 8193 1700000000 _ _ _ _ _ _ _ M3 Hfr); [lia|exact UB|apply Rabs_le; lra|bpn; lra|bpn; lra]. }
  assert (M5 : ab (ddiv (dmul x fr) (dofZ 299792458)) (u * IZR f / 299792458) (/ 5000000000)).
  { apply (ab_div 16 (8193 * 1700000000) (/ 299792458) _ _ _ _ _ 0 _ M4 Z2); [lia|exact XB|lra|lra|lra|bpn; lra|bpn; lra]. }
  unfold GPS_C.
  destruct (split_num (- 2 ^ 15) (2 ^ 15 - 1) _ _ _ M5) as (i & j & E & B1 & B2 & B3); [lia| | |].
  - change (IZR (- 2 ^ 15)) with (-32768). lra.
  - change (IZR (2 ^ 15 - 1)) with 32767. lra.
  - exists i, j. split; [exact E|]. apply Rabs_le_inv in B3. assert (JB : 0 <= IZR j) by (apply (IZR_le 0); lia). split; [|split; [exact B2|apply Rabs_le; lra]].
    split; [lia|]. enough (i <= 32761)%Z by lia. apply (Zle_half _ _ (3/4)); lra.
Qed.
Lemma cnr_ext c : (0 <= c <= 1021)%Z -> exists n, conv 0 255 (drint (dmul (dmul (dofZ c) (P2 4)) (dofZ 4))) = Some n /\ (Z.abs (4 * n - c) <= 2 /\ 0 <= n <= 255)%Z.
Proof.
  intros C. assert (X : dexact (dmul (dofZ c) (P2 4)) (scaled (c * 1) 4)) by (apply ex_mul2; [apply ex_Z; lia|apply P2_ex; lia|lia|lia]).
  assert (Y : dexact (dmul (dmul (dofZ c) (P2 4)) (dofZ 4)) (scaled (c * 1 * 4) 4)) by (apply ex_mul; [exact X|lia|lia|lia]).
  apply ab_exact in Y. destruct (ab_rint _ _ _ Y) as (n & E & B). unfold scaled in B. rewrite !mult_IZR in B. bph B. apply Rabs_le_inv in B.
  assert (CB : 0 <= IZR c <= 1021) by (split; [apply (IZR_le 0)|apply (IZR_le _ 1021)]; lia).
  assert (N1 : (4 * n <= c + 2)%Z) by (apply (Zle_half _ _ (1/10)); [rewrite plus_IZR, mult_IZR|]; lra).
  assert (N2 : (c <= 4 * n + 2)%Z) by (apply (Zle_half _ _ (1/10)); [rewrite plus_IZR, mult_IZR|]; lra).
  exists n. rewrite E, conv_in by lia. split; [reflexivity|lia].
Qed.
Definition lock_fits (t n : Z) : bool :=
  ((0 <=? n) && (n <=? 15) && (negb (n =? 0) || (t <? 32)) && ((n =? 0) || (2 ^ (n + 4) <=? t)) && ((n =? 0) || (n =? 15) || (t <? 2 ^ (n + 5))))%Z.
Lemma lock_fits_spec t n : lock_fits t n = true -> (0 <= n <= 15 /\ (n = 0 -> t < 32) /\ (0 < n -> 2 ^ (n + 4) <= t) /\ (0 < n < 15 -> t < 2 ^ (n + 5)))%Z.
Proof.
  unfold lock_fits. rewrite !andb_true_iff, !orb_true_iff, negb_true_iff, Z.eqb_neq, !Z.eqb_eq, !Z.leb_le, !Z.ltb_lt. intros ((((A & B) & C) & D) & E).
  split; [lia|]. split; [intros ->; destruct C; [lia|assumption]|]. split; [intros P; destruct D; [lia|assumption]|]. intros P. destruct E as [[E|E]|E]; [lia|lia|exact E].
Qed.
Lemma lock_num ty l : (if hi_res ty then 0 <= l < 1024 else 0 <= l < 16)%Z ->
  lock_fits (lock_ms ty l) (encode_lock_d (if hi_res ty then ddiv (dofZ (from_lock_ext l)) (dofZ 1000) else lock_time_d l)) = true.
Proof.
  intros H. destruct (hi_res ty) eqn:HR.
  - assert (E : lock_ms ty l = lock_ms 7 l) by (unfold lock_ms; rewrite HR; reflexivity). rewrite E, <- lock_ext by exact H.
    assert (X : forallb (fun l => lock_fits (from_lock_ext l) (encode_lock_d (ddiv (dofZ (from_lock_ext l)) (dofZ 1000)))) (map Z.of_nat (seq 0 1024)) = true) by (vm_cast_no_check (eq_refl true)).
    rewrite forallb_forall in X. apply X. apply in_map_iff. exists (Z.to_nat l). split; [lia|]. apply in_seq. lia.
  - assert (E : lock_ms ty l = lock_ms 4 l) by (unfold lock_ms; rewrite HR; reflexivity). rewrite E.
    assert (X : forallb (fun l => lock_fits (lock_ms 4 l) (encode_lock_d (lock_time_d l))) (map Z.of_nat (seq 0 16)) = true) by (vm_compute; reflexivity).
    rewrite forallb_forall in X. apply X. apply in_map_iff. exists (Z.to_nat l). split; [lia|]. apply in_seq. lia.
Qed.
