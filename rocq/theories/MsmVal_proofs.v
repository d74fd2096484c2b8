(** Numeric part of C65: quantisation of ranges, phases and range rates in double arithmetic *)
From Coq Require Import Reals Lra.
From Flocq Require Import Core IEEE754.Binary IEEE754.Bits.
From Verif Require Import Base Bits_model Bits_proofs Double_model Double_proofs UbxObs_proofs Esf_proofs NmeaFields_proofs NmeaSeq_proofs NmeaTime_proofs SbpEph_model SbpEph_spec SbpEph_proofs Near_proofs Exact_proofs NovImu_proofs RtcmMsm_model Sbp2Rtcm_model MsmVal_model MsmVal_spec.
Open Scope R_scope.

Lemma bp_neg k : (k <= 0)%Z -> bpow radix2 k = / IZR (2 ^ (- k)). Proof. intros K. rewrite pow_bpow by lia. rewrite <- bpow_opp. f_equal. lia. Qed.
Lemma bp_pos k : (0 <= k)%Z -> bpow radix2 k = IZR (2 ^ k). Proof. intros K. symmetry. apply pow_bpow. exact K. Qed.
Ltac bp_eq k tac := let s := eval vm_compute in (k <? 0)%Z in
  lazymatch s with
  | true => let n := eval vm_compute in (2 ^ (- k))%Z in let E := fresh in assert (E : bpow radix2 k = / IZR n) by (exact (bp_neg k ltac:(lia))); tac E; clear E
  | false => let n := eval vm_compute in (2 ^ k)%Z in let E := fresh in assert (E : bpow radix2 k = IZR n) by (exact (bp_pos k ltac:(lia))); tac E; clear E
  end.
Ltac bpn := repeat match goal with
  | |- context [bpow radix2 ?k] => bp_eq k ltac:(fun E => rewrite E)
  end.
Tactic Notation "bph" hyp(H) := repeat match type of H with context [bpow radix2 ?k] => bp_eq k ltac:(fun E => rewrite E in H) end.

Lemma ex_R x n k : dexact x (scaled n k) -> dfin x = true /\ dR x = scaled n k. Proof. intros H. exact H. Qed.
Lemma P2_ex k : (0 <= k <= 66)%Z -> dexact (P2 k) (scaled 1 k).
Proof.
  intros K. unfold P2. destruct (dscale_spec 1 (- k)) as [F V].
  - change (IZR 1 * bpow radix2 (- k)) with (scaled 1 k). apply big53; lia.
  - split; [exact F|]. change (B2R 53 1024 (dscale 1 (- k))) with (dR (dscale 1 (- k))). rewrite V. apply rnd_id. apply (scaled_format 1 k); lia.
Qed.
Lemma ex_Zk n k : (0 <= k)%Z -> (Z.abs n <= 2 ^ 53)%Z -> dexact (dofZ n) (scaled (n * 2 ^ k) k).
Proof. intros K N. change k with (0 + k)%Z at 2. rewrite <- scaled_up by lia. apply ex_Z. exact N. Qed.
Lemma ex_mul2 x y n m k : dexact x (scaled n 0) -> dexact y (scaled m k) -> (0 <= k <= 66)%Z -> (Z.abs (n * m) < 2 ^ 53)%Z -> dexact (dmul x y) (scaled (n * m) k).
Proof.
  intros X Y K N. exd X F V. exd Y G W.
  assert (Q : dR x * dR y = scaled (n * m) k) by (rewrite V, W, scaled_0; unfold scaled; rewrite mult_IZR; ring).
  destruct (dmul_spec x y F G) as [FM VM]; [rewrite Q; apply big53; lia|].
  apply ex_dR. split; [exact FM|]. rewrite VM, Q. apply rnd_id, scaled_format; lia.
Qed.
Lemma dopp_spec x : dfin x = true -> dfin (dopp x) = true /\ dR (dopp x) = - dR x.
Proof.
  destruct x as [s|s|s pl Hp|s m e Hb]; intros F; try discriminate; (split; [reflexivity|]); cbn [dopp dR B2R].
  - ring.
  - unfold dR, B2R, F2R. cbn [Fnum Fexp]. destruct s; cbn [negb cond_Zopp]; rewrite ?opp_IZR; ring.
Qed.
Lemma val_abs x a k : val x a (k * u53) -> 0 <= k <= 1000 -> dfin x = true /\ Rabs (dR x - a) <= Rabs a * (k * u53).
Proof.
  intros [F (e & B & V)] K. split; [exact F|]. rewrite V. replace (a * (1 + e) - a) with (a * e) by ring. rewrite Rabs_mult.
  apply Rmult_le_compat_l; [apply Rabs_pos|exact B].
Qed.
Lemma drint_near x n e : dfin x = true -> Rabs (dR x - IZR n) <= e -> e < / 2 -> drint x = Some n.
Proof. intros F B E. rewrite drint_spec by exact F. f_equal. apply Znearest_imp. lra. Qed.
Lemma drint_close x : dfin x = true -> exists z, drint x = Some z /\ Rabs (IZR z - dR x) <= / 2.
Proof.
  intros F. exists (ZnearestE (dR x)). split; [apply drint_spec; exact F|]. rewrite Rabs_minus_sym. apply Znearest_half.
Qed.
Lemma Zle_half a b e : IZR a <= IZR b + e -> e < 1 -> (a <= b)%Z.
Proof. intros H E. apply Z.lt_succ_r, lt_IZR. rewrite succ_IZR. lra. Qed.

(** *** pseudorange in milliseconds *)
Section Obs.
Variable o : pobs.
Hypothesis Ho : obs_in_range o.
Let P := o_P o.
Definition ms_of : R := IZR (o_P o) * 20 / 299792458.
Lemma P_bounds : (0 <= o_P o < 2 ^ 32)%Z /\ 0 <= ms_of <= 254.
Proof.
  destruct Ho as (A & _ & _ & _ & _ & _ & _ & _ & _ & B & _). split; [exact A|]. unfold ms_of.
  assert (0 <= IZR (o_P o)) by (apply IZR_le; lia). assert (IZR (20 * o_P o) <= IZR (254 * 299792458)) as Q by (apply IZR_le; exact B).
  rewrite mult_IZR in Q. change (IZR (254 * 299792458)) with 76147284332 in Q. lra.
Qed.
Lemma pr_val : val (obs_pr_ms o) ms_of (12 * u53).
Proof.
  destruct P_bounds as [R _]. unfold obs_pr_ms, GPS_C. apply (val_eq _ (IZR (o_P o) / 50 * 1000 / 299792458)); [|unfold ms_of; field].
  assert (W1 : wid 10 (/ 50)) by (split; bpv; lra).
  assert (W2 : wid 20 (/ 50 * 1000)) by (split; bpv; lra).
  assert (W3 : wid 40 (/ 50 * 1000 * / 299792458)) by (split; bpv; lra).
  apply (vdiv _ _ _ _ 5 0); [| apply vZ; lia | lra | | lra | lra | lra].
  - apply (vmul _ _ _ _ 2 0); [| apply vZ; lia | | lra | lra | lra].
    + apply (vdiv _ _ _ _ 0 0); [apply vZ; lia | apply vZ; lia | lra | | lra | lra | lra]. apply (wid_mid _ 10); [lia|lia|exact W1].
    + unfold Rdiv. rewrite Rmult_assoc. apply (wid_mid _ 20); [lia|lia|exact W2].
  - unfold Rdiv. rewrite !Rmult_assoc. rewrite <- (Rmult_assoc (/ 50)). apply (wid_mid _ 40); [lia|lia|exact W3].
Qed.
Lemma pr_near : dfin (obs_pr_ms o) = true /\ Rabs (dR (obs_pr_ms o) - ms_of) <= / 1000000000000.
Proof.
  destruct (val_abs _ _ _ pr_val ltac:(lra)) as [F B]. split; [exact F|]. destruct P_bounds as [_ M]. rewrite (Rabs_pos_eq ms_of) in B by lra.
  eapply Rle_trans; [exact B|]. apply Rle_trans with (254 * (12 * u53)); [apply Rmult_le_compat_r; [unfold u53; lra|lra]|unfold u53; lra].
Qed.
(** the rough range: a multiple of 2^-10 ms within 2^-11 ms *)
Lemma rough_spec : exists z, rint_d (dmul (obs_pr_ms o) (dofZ 1024)) = Some (dofZ z) /\ (0 <= z <= 260096)%Z /\ Rabs (IZR z / 1024 - ms_of) <= / 2048 + / 100000000000.
Proof.
  destruct pr_near as [F B]. destruct P_bounds as [_ M]. destruct (dofZ_exact 1024 ltac:(lia)) as [G W]. apply Rabs_le_inv in B.
  destruct (mul_near _ _ 19 F G ltac:(lia)) as [FM BM]; [rewrite W; bpn; apply Rabs_lt; lra|]. rewrite W in BM.
  destruct (drint_close _ FM) as (z & Q & C). exists z. unfold rint_d. rewrite Q. split; [reflexivity|].
  apply Rabs_le_inv in BM, C. bph BM.
  split; [split|].
  - apply (Zle_half 0 z (3/4)); lra.
  - apply (Zle_half z 260096 (3/4)); [|lra]. change (IZR 260096) with 260096. lra.
  - apply Rabs_le. lra.
Qed.
End Obs.

(** a satellite entry whose rough range is z/1024 ms *)
Lemma sat_raw_spec five s z : dexact (ds_range s) (scaled z 10) -> (0 <= z <= 260096)%Z ->
  (five = true -> exists r, dtrunc (ds_rate s) = Some r /\ (-32768 <= r <= 32767)%Z) ->
  exists r, sat_raw five s = Some (mkrsat (z / 1024) (ds_fcn s) (z mod 1024) r) /\ (if five then dtrunc (ds_rate s) = Some r else r = 0%Z).
Proof.
  intros X Z R. unfold sat_raw. rewrite (ex_floor _ _ _ X) by lia. change (2 ^ 10)%Z with 1024%Z. cbn [conv].
  assert (D := Z.div_mod z 1024 ltac:(lia)). assert (M := Z.mod_pos_bound z 1024 ltac:(lia)).
  assert (I : (0 <= z / 1024 <= 254)%Z) by (split; [apply Z.div_pos; lia|apply Z.div_le_upper_bound; lia]).
  destruct (Z.leb_spec 0 (z / 1024)); [|lia]. destruct (Z.leb_spec (z / 1024) 255); [|lia]. cbn [andb].
  assert (Y : dexact (dsub (ds_range s) (dofZ (z / 1024))) (scaled (z mod 1024) 10)).
  { replace (z mod 1024)%Z with (z - (z / 1024) * 1024)%Z by lia. apply ex_sub; [exact X| |lia|lia].
    apply (ex_Zk (z / 1024) 10); lia. }
  assert (Y2 : dexact (dmul (dofZ 1024) (dsub (ds_range s) (dofZ (z / 1024)))) (scaled (z mod 1024 * 2 ^ 10) 10)).
  { replace (z mod 1024 * 2 ^ 10)%Z with (1024 * (z mod 1024))%Z by lia. apply ex_mul2; [apply ex_Z; lia|exact Y|lia|lia]. }
  rewrite (ex_round_int _ _ _ Y2) by lia. cbn [conv].
  destruct (Z.leb_spec 0 (z mod 1024)); [|lia]. destruct (Z.leb_spec (z mod 1024) 65535); [|lia]. cbn [andb].
  destruct five.
  - destruct (R eq_refl) as (r & Q & B). exists r. rewrite Q. cbn [conv]. destruct (Z.leb_spec (-32768) r); [|lia]. destruct (Z.leb_spec r 32767); [|lia]. split; reflexivity.
  - exists 0%Z. split; reflexivity.
Qed.
Lemma rough_ms_ex i z r : (0 <= z <= 260096)%Z -> dexact (rough_ms (mkrsat (z / 1024) i (z mod 1024) r)) (scaled z 10).
Proof.
  intros Z. unfold rough_ms. cbn [r_int r_mod]. assert (D := Z.div_mod z 1024 ltac:(lia)). assert (M := Z.mod_pos_bound z 1024 ltac:(lia)).
  assert (I : (0 <= z / 1024 <= 254)%Z) by (split; [apply Z.div_pos; lia|apply Z.div_le_upper_bound; lia]).
  replace z with ((z / 1024) * 1024 + z mod 1024)%Z at 3 by lia. apply ex_add; [| |lia|lia].
  - apply (ex_Zk (z / 1024) 10); lia.
  - apply (ex_div (z mod 1024) 10); lia.
Qed.

Lemma add_near x y k : dfin x = true -> dfin y = true -> (-1000 <= k <= 900)%Z -> Rabs (dR x + dR y) < bpow radix2 k ->
  dfin (dadd x y) = true /\ Rabs (dR (dadd x y) - (dR x + dR y)) <= bpow radix2 (k - 54).
Proof.
  intros F G K B. destruct (dadd_spec x y F G) as [FA V].
  - eapply Rle_trans; [apply Rlt_le; exact B|apply bpow_le; lia].
  - split; [exact FA|]. rewrite V. apply rnd_err; [lia|exact B].
Qed.
Lemma sub_near x y k : dfin x = true -> dfin y = true -> (-1000 <= k <= 900)%Z -> Rabs (dR x - dR y) < bpow radix2 k ->
  dfin (dsub x y) = true /\ Rabs (dR (dsub x y) - (dR x - dR y)) <= bpow radix2 (k - 54).
Proof.
  intros F G K B. destruct (dsub_spec x y F G) as [FA V].
  - eapply Rle_trans; [apply Rlt_le; exact B|apply bpow_le; lia].
  - split; [exact FA|]. rewrite V. apply rnd_err; [lia|exact B].
Qed.

(** *** a fine field: unit 2^-k, limit 2^-j *)
(** what the reader gets of F written as a signed field of n + 1 bits *)
Definition wrap (n F : Z) : Z := if (F =? 2 ^ n)%Z then (- 2 ^ n)%Z else F.
Lemma fine_spec k j bits v x rough z : ((k = 24 /\ j = 10 /\ bits = 16) \/ (k = 29 /\ j = 8 /\ bits = 32))%Z ->
  (v = true -> dfin x = true /\ Rabs (dR x) <= 4000) -> dexact rough (scaled z 10) -> (0 <= z <= 260096)%Z ->
  exists F, fine_field v (fine v x rough) (P2 j) (P2 k) bits (- 2 ^ (k - j)) = Some F /\ (Z.abs F <= 2 ^ (k - j))%Z /\
    (wrap (k - j) F = (- 2 ^ (k - j))%Z \/
     v = true /\ Rabs (scaled (z * 2 ^ (k - 10) + wrap (k - j) F) k - dR x) <= bpow radix2 (- k - 1) + bpow radix2 (-40)) /\
    (v = true -> Rabs (dR x - scaled z 10) <= scaled (2 ^ (k - j) - 1) k -> wrap (k - j) F <> (- 2 ^ (k - j))%Z).
Proof.
  intros K X R Z. unfold fine_field, fine. destruct v; cbn [andb].
  2:{ exists (- 2 ^ (k - j))%Z. split; [reflexivity|]. split; [destruct K as [(-> & -> & ->)|(-> & -> & ->)]; cbn; lia|]. split; [left|discriminate].
      unfold wrap. destruct K as [(-> & -> & ->)|(-> & -> & ->)]; reflexivity. }
  destruct (X eq_refl) as [F B]. clear X. exd R G W.
  assert (ZB : 0 <= dR rough <= 254). { rewrite W, scaled_div by lia. change (IZR (2 ^ 10)) with 1024. split; [|assert (IZR z <= 260096) by (apply (IZR_le z 260096); lia); lra]. assert (0 <= IZR z) by (apply IZR_le; lia). lra. }
  apply Rabs_le_inv in B.
  destruct (sub_near x rough 13 F G ltac:(lia)) as [FD BD]; [bpn; apply Rabs_lt; lra|].
  destruct (dabs_spec _ FD) as [FA VA]. assert (PJ : dexact (P2 j) (scaled 1 j)) by (apply P2_ex; lia). exd PJ FJ VJ.
  assert (PK : dexact (P2 k) (scaled 1 k)) by (apply P2_ex; lia). exd PK FK VK.
  rewrite dltb_spec by assumption. rewrite VA, VJ. set (d := dsub x rough) in *. clearbody d.
  assert (S1 : forall n, scaled n k = IZR n * scaled 1 k) by (intros n; unfold scaled; ring).
  assert (SZ : scaled (z * 2 ^ (k - 10)) k = scaled z 10) by (replace k with (10 + (k - 10))%Z at 2 by lia; symmetry; apply scaled_up; lia).
  destruct (Rlt_bool_spec (Rabs (dR d)) (scaled 1 j)) as [L|L].
  - assert (U : 0 < scaled 1 k) by (unfold scaled; apply Rmult_lt_0_compat; [lra|apply bpow_gt_0]).
    assert (UJ : scaled 1 j = IZR (2 ^ (k - j)) * scaled 1 k) by (unfold scaled; rewrite pow_bpow by lia; rewrite Rmult_1_l, Rmult_1_l, <- bpow_plus; f_equal; lia).
    assert (Q : Rabs (dR d / scaled 1 k) < IZR (2 ^ (k - j))).
    { unfold Rdiv. rewrite Rabs_mult, (Rabs_pos_eq (/ scaled 1 k)) by (apply Rlt_le, Rinv_0_lt_compat; exact U). apply Rmult_lt_reg_r with (scaled 1 k); [exact U|].
      rewrite Rmult_assoc, Rinv_l by lra. rewrite <- UJ. lra. }
    destruct (div_near d (P2 k) (k - j)) as [FQ BQ]; [exact FD|rewrite VK; lra|lia|rewrite VK; rewrite <- pow_bpow by lia; exact Q|]. rewrite VK in BQ.
    assert (FR := FQ). apply (dint_fin zra) in FR. destruct FR as (f & E). change (dint zra) with dround in E. pose proof (dround_close _ _ E) as C. rewrite E.
    assert (T : bpow radix2 (k - j - 54) <= bpow radix2 (-33)) by (apply bpow_le; lia).
    assert (A : (Z.abs f <= 2 ^ (k - j))%Z).
    { apply Rabs_lt_inv in Q. apply Rabs_le_inv in BQ, C. bph T. apply Z.abs_le. split; [apply (Zle_half _ _ (3/4)); [rewrite opp_IZR|]; lra|apply (Zle_half _ _ (3/4)); lra]. }
    exists f. split; [|split; [exact A|]].
    { unfold conv. assert ((- 2 ^ (bits - 1) <= f <= 2 ^ (bits - 1) - 1)%Z) as [H1 H2] by (destruct K as [(-> & -> & ->)|(-> & -> & ->)]; revert A; clear; intros A; lia).
      apply Z.leb_le in H1, H2. rewrite H1, H2. reflexivity. }
    assert (DF : Rabs (scaled (z * 2 ^ (k - 10) + f) k - dR x) <= bpow radix2 (- k - 1) + bpow radix2 (-40)).
    { assert (V2 : scaled (z * 2 ^ (k - 10) + f) k = scaled z 10 + IZR f * scaled 1 k) by (rewrite <- SZ; unfold scaled; rewrite plus_IZR; ring).
      assert (Hf : Rabs (IZR f * scaled 1 k - dR d) <= (/ 2 + bpow radix2 (-33)) * scaled 1 k).
      { replace (IZR f * scaled 1 k - dR d) with ((IZR f - dR d / scaled 1 k) * scaled 1 k) by (field; lra). rewrite Rabs_mult, (Rabs_pos_eq (scaled 1 k)) by lra.
        apply Rmult_le_compat_r; [lra|]. apply Rabs_le_inv in C, BQ. apply Rabs_le. lra. }
      rewrite V2. rewrite W in BD. apply Rabs_le_inv in Hf, BD. apply Rabs_le.
      assert (SK : scaled 1 k <= / 16777216 /\ scaled 1 k = 2 * bpow radix2 (- k - 1)).
      { destruct K as [(-> & -> & ->)|(-> & -> & ->)]; unfold scaled; bpn; lra. }
      destruct SK as [SK SK2]. set (e := bpow radix2 (- k - 1)) in *. bpn. bph Hf. bph BD. lra. }
    split.
    + unfold wrap. destruct (Z.eqb_spec f (2 ^ (k - j))); [left; reflexivity|right]. split; [reflexivity|exact DF].
    + intros _ N. assert (FB : (Z.abs f <= 2 ^ (k - j) - 1)%Z).
      { assert (N2 : Rabs (dR d / scaled 1 k) <= IZR (2 ^ (k - j) - 1) + / 16).
        { unfold Rdiv. rewrite Rabs_mult, (Rabs_pos_eq (/ scaled 1 k)) by (apply Rlt_le, Rinv_0_lt_compat; exact U). apply Rmult_le_reg_r with (scaled 1 k); [exact U|].
          rewrite Rmult_assoc, Rinv_l by lra. rewrite (S1 (2 ^ (k - j) - 1)%Z) in N. rewrite W in BD. 
          assert (SK : 16 * bpow radix2 (13 - 54) <= scaled 1 k) by (destruct K as [(-> & -> & ->)|(-> & -> & ->)]; unfold scaled; bpn; lra).
          set (b := bpow radix2 (13 - 54)) in *. apply Rabs_le_inv in N, BD. rewrite Rmult_1_r. apply Rabs_le. lra. }
        apply Rabs_le_inv in N2, C, BQ. bph T. apply Z.abs_le. split; [apply (Zle_half _ _ (3/4)); [rewrite opp_IZR|]; lra|apply (Zle_half _ _ (3/4)); lra]. }
      unfold wrap. destruct (Z.eqb_spec f (2 ^ (k - j))); lia.
  - exists (- 2 ^ (k - j))%Z. split; [reflexivity|]. split; [lia|]. split.
    + left. unfold wrap. destruct (Z.eqb_spec (- 2 ^ (k - j)) (2 ^ (k - j))); reflexivity.
    + intros _ N. exfalso. rewrite W in BD. apply Rabs_le_inv in N, BD. revert N. rewrite (S1 (2 ^ (k - j) - 1)%Z), minus_IZR.
      assert (U : 0 < scaled 1 k) by (unfold scaled; apply Rmult_lt_0_compat; [lra|apply bpow_gt_0]).
      assert (UJ : scaled 1 j = IZR (2 ^ (k - j)) * scaled 1 k) by (unfold scaled; rewrite pow_bpow by lia; rewrite Rmult_1_l, Rmult_1_l, <- bpow_plus; f_equal; lia).
      assert (SK : 16 * bpow radix2 (13 - 54) <= scaled 1 k) by (destruct K as [(-> & -> & ->)|(-> & -> & ->)]; unfold scaled; bpn; lra).
      set (b := bpow radix2 (13 - 54)) in *. rewrite UJ in L. intros N. unfold Rabs in L. destruct (Rcase_abs (dR d)); lra.
Qed.

Lemma fine_value k z F rough : (10 <= k <= 29)%Z -> (0 <= z <= 260096)%Z -> (Z.abs F <= 2 ^ 22)%Z -> dexact rough (scaled z 10) ->
  dexact (dadd rough (dmul (dofZ F) (P2 k))) (scaled (z * 2 ^ (k - 10) + F) k).
Proof.
  intros K Z HF R. assert (P : (2 ^ (k - 10) <= 2 ^ 19)%Z) by (apply Z.pow_le_mono_r; lia). assert (0 < 2 ^ (k - 10))%Z by (apply Z.pow_pos_nonneg; lia).
  apply ex_add; [| |lia|nia].
  - replace k with (10 + (k - 10))%Z at 2 by lia. rewrite <- scaled_up by lia. exact R.
  - replace F with (F * 1)%Z at 2 by lia. apply ex_mul2; [apply ex_Z; lia|apply P2_ex; lia|lia|lia].
Qed.
(** pseudorange: the reader rounds to the number of 2 cm units sent *)
Lemma range_back o x y : obs_in_range o -> dexact x y -> Rabs (y - dR (obs_pr_ms o)) <= bpow radix2 (- (24) - 1) + bpow radix2 (-40) ->
  conv 0 (2 ^ 32 - 1) (drint (dmul (dadd (dadd (ddiv (dmul x GPS_C) (dofZ 1000)) d0) d0) (dofZ 50))) = Some (o_P o).
Proof.
  intros Ho X B. exd X F V. destruct (pr_near o Ho) as [_ Q]. destruct (P_bounds o Ho) as [PB M]. bph B. rewrite <- V in B. clear V y.
  apply Rabs_le_inv in B, Q.
  destruct (dofZ_exact 299792458 ltac:(lia)) as [GC VC]. destruct (dofZ_exact 1000 ltac:(lia)) as [GK VK]. destruct (dofZ_exact 50 ltac:(lia)) as [G5 V5]. destruct (dofZ_exact 0 ltac:(lia)) as [G0 V0].
  unfold GPS_C, d0.
  destruct (mul_near x (dofZ 299792458) 37 F GC ltac:(lia)) as [F1 E1]; [rewrite VC; bpn; apply Rabs_lt; lra|]. rewrite VC in E1. bph E1. apply Rabs_le_inv in E1. set (x1 := dmul x _) in *. clearbody x1.
  destruct (div_near x1 (dofZ 1000) 27 F1) as [F2 E2]; [rewrite VK; lra|lia|rewrite VK; bpn; apply Rabs_lt; lra|]. rewrite VK in E2. bph E2. apply Rabs_le_inv in E2. set (x2 := ddiv x1 _) in *. clearbody x2.
  destruct (add_near x2 (dofZ 0) 27 F2 G0) as [F3 E3]; [lia|rewrite V0; bpn; apply Rabs_lt; lra|]. rewrite V0 in E3. bph E3. apply Rabs_le_inv in E3. set (x3 := dadd x2 _) in *. clearbody x3.
  destruct (add_near x3 (dofZ 0) 27 F3 G0) as [F4 E4]; [lia|rewrite V0; bpn; apply Rabs_lt; lra|]. rewrite V0 in E4. bph E4. apply Rabs_le_inv in E4. set (x4 := dadd x3 _) in *. clearbody x4.
  destruct (mul_near x4 (dofZ 50) 33 F4 G5 ltac:(lia)) as [F5 E5]; [rewrite V5; bpn; apply Rabs_lt; lra|]. rewrite V5 in E5. bph E5. apply Rabs_le_inv in E5. set (x5 := dmul x4 _) in *. clearbody x5.
  assert (MP : IZR (o_P o) = ms_of o * 299792458 / 20) by (unfold ms_of; field).
  rewrite (drint_near x5 (o_P o) (49/100) F5); [|rewrite MP; apply Rabs_le; lra|lra].
  cbn [conv]. destruct (Z.leb_spec 0 (o_P o)); [|lia]. destruct (Z.leb_spec (o_P o) (2 ^ 32 - 1)); [|lia]. reflexivity.
Qed.

(** splitting into whole cycles and 1/256ths *)
Lemma split_back lo hi x N : dfin x = true -> Rabs (dR x - IZR N / 256) <= / 520 -> (lo + 1 <= N / 256 <= hi)%Z -> (-2 ^ 40 <= lo /\ hi <= 2 ^ 40)%Z ->
  split256 lo hi x = Some (N / 256, N mod 256)%Z.
Proof.
  intros F B L HB. unfold split256. rewrite dfloor_spec by exact F. set (i := Zfloor (dR x)).
  assert (I1 : IZR i <= dR x) by apply Zfloor_lb. assert (I2 : dR x < IZR i + 1) by apply Zfloor_ub. clearbody i.
  assert (DN := Z.div_mod N 256 ltac:(lia)). assert (MN := Z.mod_pos_bound N 256 ltac:(lia)).
  apply Rabs_le_inv in B.
  assert (C1 : (256 * i <= N)%Z) by (apply (Zle_half _ _ (3/4)); [rewrite mult_IZR; change (IZR 256) with 256|]; lra).
  assert (C2 : (N <= 256 * i + 256)%Z) by (apply (Zle_half _ _ (3/4)); [rewrite plus_IZR, mult_IZR; change (IZR 256) with 256|]; lra).
  assert (ib : (lo <= i <= hi)%Z) by nia.
  cbn [conv]. destruct (Z.leb_spec lo i); [|lia]. destruct (Z.leb_spec i hi); [|lia]. cbn [andb].
  destruct (dofZ_exact i ltac:(lia)) as [Gi Vi]. destruct (dofZ_exact 256 ltac:(lia)) as [G2 V2].
  destruct (sub_near x (dofZ i) 0 F Gi ltac:(lia)) as [F1 E1]; [rewrite Vi; bpn; apply Rabs_lt; lra|]. rewrite Vi in E1. bph E1. apply Rabs_le_inv in E1. set (x1 := dsub x _) in *. clearbody x1.
  destruct (mul_near x1 (dofZ 256) 9 F1 G2 ltac:(lia)) as [F2 E2]; [rewrite V2; bpn; apply Rabs_lt; lra|]. rewrite V2 in E2. bph E2. apply Rabs_le_inv in E2. set (x2 := dmul x1 _) in *. clearbody x2.
  rewrite (drint_near x2 (N - 256 * i) (499/1000) F2); [|rewrite minus_IZR, mult_IZR; change (IZR 256) with 256; apply Rabs_le; lra|lra].
  cbn [conv]. destruct (Z.leb_spec 0 (N - 256 * i)); [|lia]. destruct (Z.leb_spec (N - 256 * i) 65535); [|lia]. cbn [andb].
  destruct (Z.eqb_spec (N - 256 * i) 256) as [E|E]; do 2 f_equal.
  - apply (Z.div_unique_pos N 256 (i + 1) 0); lia.
  - apply (Z.mod_unique_pos N 256 (i + 1) 0); lia.
  - apply (Z.div_unique_pos N 256 i (N - 256 * i)); lia.
  - rewrite Z.mod_small by lia. apply (Z.mod_unique_pos N 256 i (N - 256 * i)); lia.
Qed.

Section Freq.
Variable f : Z.
Variable fr : dbl.
Hypothesis Hf : (1100000000 <= f <= 1700000000)%Z.
Hypothesis Hfr : dexact fr (scaled f 0).
Lemma fr_R : dfin fr = true /\ dR fr = IZR f /\ 1100000000 <= IZR f <= 1700000000.
Proof. exd Hfr F V. rewrite scaled_0 in V. split; [exact F|]. split; [exact V|]. split; [apply (IZR_le 1100000000)|apply (IZR_le f 1700000000)]; lia. Qed.

Definition cyc (o : pobs) : Z := (o_Li o * 256 + o_Lf o)%Z.
Definition phase_ms (o : pobs) : R := IZR (cyc o) / 256 * 1000 / IZR f.
Lemma frac256 a b : (Z.abs a <= 2 ^ 31)%Z -> (0 <= b < 256)%Z -> dexact (dadd (dofZ a) (ddiv (dofZ b) (dofZ 256))) (scaled (a * 256 + b) 8).
Proof. intros A B. apply ex_add; [apply (ex_Zk a 8); lia|apply (ex_div b 8); lia|lia|lia]. Qed.
Lemma cp_near o : obs_in_range o -> dfin (obs_cp_ms o fr) = true /\ Rabs (dR (obs_cp_ms o fr) - phase_ms o) <= / 1000000000000 /\ Rabs (phase_ms o) <= 1960.
Proof.
  intros (_ & L1 & L2 & _). destruct fr_R as (F & V & B).
  assert (X := ex_mul _ _ 8 1000 (frac256 (o_Li o) (o_Lf o) ltac:(lia) L2) ltac:(lia) ltac:(lia) ltac:(lia)). fold (cyc o) in X.
  assert (CB : (- 549755813888 <= cyc o <= 549755813888)%Z) by (unfold cyc; lia). unfold obs_cp_ms. set (x := dmul _ _) in *. clearbody x. exd X FX VX.
  assert (VX2 : dR x = IZR (cyc o) / 256 * 1000). { rewrite VX, scaled_div, mult_IZR by lia. change (IZR (2 ^ 8)) with 256. change (IZR 1000) with 1000. field. }
  assert (C1 : - 549755813888 <= IZR (cyc o) <= 549755813888) by (split; [apply (IZR_le (-549755813888))|apply (IZR_le _ 549755813888)]; lia).
  assert (Q : Rabs (phase_ms o) <= 1960).
  { unfold phase_ms, Rdiv. rewrite Rabs_mult, (Rabs_pos_eq (/ IZR f)) by (apply Rlt_le, Rinv_0_lt_compat; lra).
    apply Rmult_le_reg_r with (IZR f); [lra|]. rewrite Rmult_assoc, Rinv_l by lra. apply Rle_trans with (549755813888 * / 256 * 1000); [|nra].
    rewrite Rmult_1_r. apply Rabs_le. lra. }
  destruct (div_near x fr 11 FX) as [FD ED]; [lra|lia|rewrite VX2, V; fold (phase_ms o); bpn; lra|]. rewrite VX2, V in ED. fold (phase_ms o) in ED. bph ED.
  split; [exact FD|]. split; [lra|exact Q].
Qed.
Lemma phase_back o x y : obs_in_range o -> dexact x y -> Rabs y <= 256 -> Rabs (y - dR (obs_cp_ms o fr)) <= bpow radix2 (- (29) - 1) + bpow radix2 (-40) ->
  split256 (- 2 ^ 31) (2 ^ 31 - 1) (dadd (ddiv (dmul x fr) (dofZ 1000)) d0) = Some (o_Li o, o_Lf o).
Proof.
  intros Ho X YB B. exd X F V. destruct (cp_near o Ho) as (_ & Q & _). destruct fr_R as (FF & VF & HF). bph B. rewrite <- V in B, YB. clear V y.
  apply Rabs_le_inv in B, Q, YB.
  destruct (dofZ_exact 1000 ltac:(lia)) as [GK VK]. destruct (dofZ_exact 0 ltac:(lia)) as [G0 V0]. unfold d0.
  assert (XF : Rabs (dR x * IZR f) <= 256 * 1700000000). { rewrite Rabs_mult, (Rabs_pos_eq (IZR f)) by lra. apply Rmult_le_compat; [apply Rabs_pos|lra|apply Rabs_le; lra|lra]. }
  assert (D : Rabs (dR x * IZR f / 1000 - IZR (cyc o) / 256) <= / 600).
  { replace (dR x * IZR f / 1000 - IZR (cyc o) / 256) with ((dR x - phase_ms o) * (IZR f / 1000)) by (unfold phase_ms; field; lra).
    rewrite Rabs_mult, (Rabs_pos_eq (IZR f / 1000)) by lra. apply Rle_trans with ((/ 1073741824 + / 1099511627776 + / 1000000000000) * 1700000); [|lra].
    apply Rmult_le_compat; [apply Rabs_pos|lra|apply Rabs_le; lra|lra]. }
  destruct (mul_near x fr 39 F FF ltac:(lia)) as [F1 E1]; [rewrite VF; bpn; lra|]. rewrite VF in E1. bph E1. apply Rabs_le_inv in E1, XF, D. set (x1 := dmul x _) in *. clearbody x1.
  destruct (div_near x1 (dofZ 1000) 29 F1) as [F2 E2]; [rewrite VK; lra|lia|rewrite VK; bpn; apply Rabs_lt; lra|]. rewrite VK in E2. bph E2. apply Rabs_le_inv in E2. set (x2 := ddiv x1 _) in *. clearbody x2.
  destruct (add_near x2 (dofZ 0) 29 F2 G0) as [F3 E3]; [lia|rewrite V0; bpn; apply Rabs_lt; lra|]. rewrite V0 in E3. bph E3. apply Rabs_le_inv in E3. set (x3 := dadd x2 _) in *. clearbody x3.
  destruct Ho as (_ & L1 & L2 & _).
  assert (CD : (cyc o / 256 = o_Li o)%Z) by (unfold cyc; symmetry; apply (Z.div_unique_pos _ 256 _ (o_Lf o)); lia).
  assert (CM : (cyc o mod 256 = o_Lf o)%Z) by (unfold cyc; symmetry; apply (Z.mod_unique_pos _ 256 (o_Li o) _); lia).
  assert (CB : (- 130000000000 <= cyc o)%Z) by (apply (Zle_half _ _ (3/4)); [change (IZR (-130000000000)) with (-130000000000)|]; lra).
  rewrite <- CD, <- CM. apply split_back; [exact F3|apply Rabs_le; lra| |lia].
  unfold cyc in CB. rewrite CD. lia.
Qed.

(** *** range rates *)
Definition dop (o : pobs) : Z := (o_Di o * 256 + o_Df o)%Z.
Definition rate_R (o : pobs) : R := - (IZR (dop o) / 256 * 299792458 / IZR f).
Lemma rate_near o : obs_in_range o -> dfin (obs_rate o fr) = true /\ Rabs (dR (obs_rate o fr) - rate_R o) <= / 1000000000000 /\ Rabs (rate_R o) <= 8177.
Proof.
  intros (_ & _ & _ & _ & D2 & _ & _ & _ & _ & _ & D1). destruct fr_R as (F & V & B).
  assert (X := frac256 (o_Di o) (o_Df o) ltac:(lia) D2). fold (dop o) in X.
  assert (CB : (- 7680000 <= dop o <= 7680000)%Z) by (unfold dop; lia). unfold obs_rate. set (x0 := dadd _ _) in *. clearbody x0. exd X F0 V0.
  destruct (dopp_spec _ F0) as [FO VO]. assert (X : dexact (dopp x0) (scaled (- dop o) 8)) by (split; [exact FO|]; unfold dR in VO, V0; rewrite VO, V0; unfold scaled; rewrite opp_IZR; ring).
  assert (X2 := ex_mul _ _ 8 299792458 X ltac:(lia) ltac:(lia) ltac:(lia)). fold GPS_C in X2. set (x := dmul _ _) in *. clearbody x. exd X2 FX VX.
  assert (VX2 : dR x = - (IZR (dop o) / 256 * 299792458)). { rewrite VX, scaled_div, mult_IZR, opp_IZR by lia. change (IZR (2 ^ 8)) with 256. change (IZR 299792458) with 299792458. field. }
  assert (C1 : - 7680000 <= IZR (dop o) <= 7680000) by (split; [apply (IZR_le (-7680000))|apply (IZR_le _ 7680000)]; lia).
  assert (RD : dR x / dR fr = rate_R o) by (rewrite VX2, V; unfold rate_R; field; lra).
  assert (Q : Rabs (rate_R o) <= 8177).
  { rewrite <- RD, VX2, V. unfold Rdiv. rewrite Rabs_mult, (Rabs_pos_eq (/ IZR f)) by (apply Rlt_le, Rinv_0_lt_compat; lra).
    apply Rmult_le_reg_r with (IZR f); [lra|]. rewrite Rmult_assoc, Rinv_l by lra. apply Rle_trans with (7680000 * / 256 * 299792458); [|lra].
    rewrite Rmult_1_r. apply Rabs_le. lra. }
  destruct (div_near x fr 13 FX) as [FD ED]; [lra|lia|rewrite RD; bpn; lra|]. rewrite RD in ED. bph ED.
  split; [exact FD|]. split; [lra|exact Q].
Qed.
Lemma rough_rate_spec o : obs_in_range o -> exists r, rint_d (obs_rate o fr) = Some (dofZ r) /\ (Z.abs r <= 8178)%Z /\ Rabs (IZR r - rate_R o) <= / 2 + / 1000000000000.
Proof.
  intros Ho. destruct (rate_near o Ho) as (F & B & Q). destruct (drint_close _ F) as (r & E & C). exists r. unfold rint_d. rewrite E. split; [reflexivity|].
  apply Rabs_le_inv in B, Q, C. split; [|apply Rabs_le; lra].
  apply Z.abs_le. split; [apply (Zle_half _ _ (3/4)); [rewrite opp_IZR|]; lra|apply (Zle_half _ _ (3/4)); lra].
Qed.
End Freq.
Lemma d1e_4_spec : dfin d1e_4 = true /\ Rabs (dR d1e_4 - / 10000) <= / 100000000000000000000.
Proof.
  unfold d1e_4. destruct (dofZ_exact 1 ltac:(lia)) as [F1 V1]. destruct (dofZ_exact 10000 ltac:(lia)) as [F2 V2].
  destruct (div_near (dofZ 1) (dofZ 10000) (-13) F1) as [F E]; [rewrite V2; lra|lia|rewrite V1, V2; bpn; apply Rabs_lt; lra|]. rewrite V1, V2 in E. bph E. split; [exact F|].
  apply Rabs_le_inv in E. apply Rabs_le. lra.
Qed.
Lemma rate_fine_spec v x r : (v = true -> dfin x = true /\ Rabs (dR x) <= 8180) -> (Z.abs r <= 8178)%Z ->
  exists F, fine_field v (fine v x (dofZ r)) (dmul d1e_4 (dofZ 16384)) d1e_4 16 (- 16384) = Some F /\ (Z.abs F <= 16384)%Z /\
    (wrap 14 F = (- 16384)%Z \/
     v = true /\ dfin (dadd (dofZ r) (dmul (dofZ (wrap 14 F)) d1e_4)) = true /\ Rabs (dR (dadd (dofZ r) (dmul (dofZ (wrap 14 F)) d1e_4)) - dR x) <= / 19000) /\
    (v = true -> Rabs (dR x - IZR r) <= 16383 / 10000 -> wrap 14 F <> (- 16384)%Z).
Proof.
  intros X Hr. unfold fine_field, fine. destruct v; cbn [andb].
  2:{ exists (- 16384)%Z. split; [reflexivity|]. split; [lia|]. split; [left; reflexivity|discriminate]. }
  destruct (X eq_refl) as [F B]. clear X. destruct (dofZ_exact r ltac:(lia)) as [G W]. destruct d1e_4_spec as [FU U]. destruct (dofZ_exact 16384 ltac:(lia)) as [G6 V6].
  assert (RB : -8178 <= IZR r <= 8178) by (split; [apply (IZR_le (-8178))|apply (IZR_le r 8178)]; lia).
  apply Rabs_le_inv in B, U.
  destruct (sub_near x (dofZ r) 15 F G ltac:(lia)) as [FD BD]; [rewrite W; bpn; apply Rabs_lt; lra|]. rewrite W in BD. bph BD. set (d := dsub _ _) in *. clearbody d.
  destruct (mul_near d1e_4 (dofZ 16384) 1 FU G6 ltac:(lia)) as [FL BL]; [rewrite V6; bpn; apply Rabs_lt; lra|]. rewrite V6 in BL. bph BL. set (lim := dmul d1e_4 (dofZ 16384)) in *. clearbody lim.
  destruct (dabs_spec _ FD) as [FA VA]. rewrite dltb_spec by assumption. rewrite VA. apply Rabs_le_inv in BD, BL.
  destruct (Rlt_bool_spec (Rabs (dR d)) (dR lim)) as [L|L].
  - assert (UP : 0 < dR d1e_4) by lra. apply Rabs_lt_inv in L.
    assert (Q : Rabs (dR d / dR d1e_4) <= 16384 + / 1000).
    { unfold Rdiv. rewrite Rabs_mult, (Rabs_pos_eq (/ dR d1e_4)) by (apply Rlt_le, Rinv_0_lt_compat; exact UP). apply Rmult_le_reg_r with (dR d1e_4); [exact UP|].
      rewrite Rmult_assoc, Rinv_l by lra. rewrite Rmult_1_r. apply Rle_trans with (163840001 / 100000000); [apply Rabs_le; lra|lra]. }
    destruct (div_near d d1e_4 15) as [FQ BQ]; [exact FD|lra|lia|bpn; lra|]. bph BQ.
    assert (FR := FQ). apply (dint_fin zra) in FR. destruct FR as (k & E). change (dint zra) with dround in E. pose proof (dround_close _ _ E) as C. rewrite E.
    apply Rabs_le_inv in Q, BQ, C.
    assert (A : (Z.abs k <= 16384)%Z).
    { apply Z.abs_le. split; [apply (Zle_half _ _ (3/4)); [rewrite opp_IZR|]; lra|apply (Zle_half _ _ (3/4)); lra]. }
    assert (AR : -16384 <= IZR k <= 16384) by (split; [apply (IZR_le (-16384))|apply (IZR_le k 16384)]; lia).
    exists k. split; [|split; [exact A|]].
    { cbn [conv]. assert ((- 2 ^ (16 - 1) <= k <= 2 ^ (16 - 1) - 1)%Z) as [H1 H2] by (revert A; clear; intros A; lia). apply Z.leb_le in H1, H2. rewrite H1, H2. reflexivity. }
    assert (HK : Rabs (IZR k * dR d1e_4 - dR d) <= / 19990).
    { replace (IZR k * dR d1e_4 - dR d) with ((IZR k - dR d / dR d1e_4) * dR d1e_4) by (field; lra). rewrite Rabs_mult, (Rabs_pos_eq (dR d1e_4)) by lra.
      apply Rle_trans with ((/ 2 + / 1000000000) * (/ 10000 + / 100000000000000000000)); [|lra]. apply Rmult_le_compat; [apply Rabs_pos|lra|apply Rabs_le; lra|lra]. }
    split.
    + unfold wrap. change (2 ^ 14)%Z with 16384%Z. destruct (Z.eqb_spec k 16384); [left; reflexivity|right]. split; [reflexivity|].
      destruct (dofZ_exact k ltac:(lia)) as [Gk Vk]. apply Rabs_le_inv in HK.
      destruct (mul_near (dofZ k) d1e_4 1 Gk FU ltac:(lia)) as [F1 E1]; [rewrite Vk; bpn; apply Rabs_lt; lra|]. rewrite Vk in E1. bph E1. set (x1 := dmul (dofZ k) _) in *. clearbody x1.
      apply Rabs_le_inv in E1.
      destruct (add_near (dofZ r) x1 14 G F1 ltac:(lia)) as [F2 E2]; [rewrite W; bpn; apply Rabs_lt; lra|]. rewrite W in E2. bph E2. split; [exact F2|]. apply Rabs_le_inv in E2. apply Rabs_le. lra.
    + intros _ N. apply Rabs_le_inv in N, HK. assert (FB : (Z.abs k <= 16383)%Z).
      { assert (Q2 : Rabs (dR d / dR d1e_4) <= 16383 + / 1000).
        { unfold Rdiv. rewrite Rabs_mult, (Rabs_pos_eq (/ dR d1e_4)) by (apply Rlt_le, Rinv_0_lt_compat; exact UP). apply Rmult_le_reg_r with (dR d1e_4); [exact UP|].
          rewrite Rmult_assoc, Rinv_l by lra. rewrite Rmult_1_r. apply Rle_trans with (163830001 / 100000000); [apply Rabs_le; lra|lra]. }
        apply Rabs_le_inv in Q2. apply Z.abs_le. split; [apply (Zle_half _ _ (3/4)); [rewrite opp_IZR|]; lra|apply (Zle_half _ _ (3/4)); lra]. }
      unfold wrap. change (2 ^ 14)%Z with 16384%Z. destruct (Z.eqb_spec k 16384); lia.
  - exists (- 16384)%Z. split; [reflexivity|]. split; [lia|]. split; [left; reflexivity|].
    intros _ N. exfalso. apply Rabs_le_inv in N. unfold Rabs in L. destruct (Rcase_abs (dR d)); lra.
Qed.
Lemma rate_back f fr o x : (1100000000 <= f <= 1700000000)%Z -> dexact fr (scaled f 0) -> obs_in_range o -> dfin x = true -> Rabs (dR x - dR (obs_rate o fr)) <= / 19000 ->
  split256 (- 2 ^ 15) (2 ^ 15 - 1) (ddiv (dmul (dopp x) fr) GPS_C) = Some (o_Di o, o_Df o).
Proof.
  intros Hf Hfr Ho F B. destruct (rate_near f fr Hf Hfr o Ho) as (_ & Q & QB). destruct (fr_R f fr Hf Hfr) as (FF & VF & HF).
  apply Rabs_le_inv in B, Q, QB. destruct (dopp_spec _ F) as [FO VO]. set (y := dopp x) in *. clearbody y.
  destruct (dofZ_exact 299792458 ltac:(lia)) as [GC VC]. unfold GPS_C.
  assert (XF : Rabs (dR y * IZR f) <= 8180 * 1700000000). { rewrite Rabs_mult, (Rabs_pos_eq (IZR f)) by lra. apply Rmult_le_compat; [apply Rabs_pos|lra|apply Rabs_le; lra|lra]. }
  assert (D : Rabs (dR y * IZR f / 299792458 - IZR (dop o) / 256) <= / 3000).
  { replace (dR y * IZR f / 299792458 - IZR (dop o) / 256) with ((dR y + rate_R f o) * (IZR f / 299792458)) by (unfold rate_R; field; lra).
    rewrite Rabs_mult, (Rabs_pos_eq (IZR f / 299792458)) by lra. apply Rle_trans with ((/ 18999) * (1700000000 / 299792458)); [|lra].
    apply Rmult_le_compat; [apply Rabs_pos|lra|apply Rabs_le; lra|lra]. }
  destruct (mul_near y fr 44 FO FF ltac:(lia)) as [F1 E1]; [rewrite VF; bpn; lra|]. rewrite VF in E1. bph E1. apply Rabs_le_inv in E1, XF, D. set (x1 := dmul y _) in *. clearbody x1.
  destruct (div_near x1 (dofZ 299792458) 17 F1) as [F2 E2]; [rewrite VC; lra|lia|rewrite VC; bpn; apply Rabs_lt; lra|]. rewrite VC in E2. bph E2. apply Rabs_le_inv in E2. set (x2 := ddiv x1 _) in *. clearbody x2.
  destruct Ho as (_ & _ & _ & _ & D2 & _ & _ & _ & _ & _ & D1).
  assert (CD : (dop o / 256 = o_Di o)%Z) by (unfold dop; symmetry; apply (Z.div_unique_pos _ 256 _ (o_Df o)); lia).
  assert (CM : (dop o mod 256 = o_Df o)%Z) by (unfold dop; symmetry; apply (Z.mod_unique_pos _ 256 (o_Di o) _); lia).
  rewrite <- CD, <- CM. apply split_back; [exact F2|apply Rabs_le; lra|rewrite CD; lia|lia].
Qed.
(** *** C/N0 and lock time *)
Lemma cnr_spec n : byte n -> exists z, conv 0 255 (dround (ddiv (dofZ n) (dofZ 4))) = Some z /\ (Z.abs (4 * z - n) <= 2 /\ 0 <= z <= 64)%Z.
Proof.
  intros Hn. unfold byte in Hn. destruct (ex_round _ _ 2 (ex_div n 2 ltac:(lia) ltac:(lia)) ltac:(lia)) as (z & E & B). exists z. change (2 ^ 2)%Z with 4%Z in *. rewrite E.
  assert (ZB : (0 <= z <= 64)%Z) by lia. cbn [conv]. destruct (Z.leb_spec 0 z); [|lia]. destruct (Z.leb_spec z 255); [|lia]. split; [reflexivity|lia].
Qed.
Lemma cnr_back c : (0 <= c <= 63)%Z -> conv 0 255 (drint (dmul (dofZ c) (dofZ 4))) = Some (4 * c)%Z.
Proof.
  intros C. destruct (ex_R _ _ _ (ex_mul _ c 0 4 (ex_Z c ltac:(lia)) ltac:(lia) ltac:(lia) ltac:(lia))) as [F V]. rewrite scaled_0 in V.
  rewrite (drint_near _ (c * 4) 0 F); [|rewrite V, Rminus_diag_eq, Rabs_R0 by reflexivity; lra|lra]. cbn [conv].
  destruct (Z.leb_spec 0 (c * 4)); [|lia]. destruct (Z.leb_spec (c * 4) 255); [|lia]. cbn [andb]. f_equal. lia.
Qed.
Lemma lock_all : forallb (fun l => (encode_lock_d (lock_time_d l) =? l)%Z) (map Z.of_nat (seq 0 16)) = true.
Proof. vm_compute. reflexivity. Qed.
Lemma lock_back l : (0 <= l)%Z -> encode_lock_d (lock_time_d l) = (l mod 16)%Z.
Proof.
  intros L. assert (M : Z.land l 15 = (l mod 16)%Z) by (change 15%Z with (Z.ones 4); rewrite Z.land_ones by lia; reflexivity).
  assert (B := Z.mod_pos_bound l 16 ltac:(lia)).
  assert (E : lock_time_d l = lock_time_d (l mod 16)).
  { unfold lock_time_d. rewrite M. change 15%Z with (Z.ones 4). rewrite Z.land_ones by lia. change (2 ^ 4)%Z with 16%Z. rewrite Z.mod_mod by lia. reflexivity. }
  rewrite E. pose proof (proj1 (forallb_forall _ _) lock_all (l mod 16)%Z) as A. apply Z.eqb_eq, A, in_map_iff. exists (Z.to_nat (l mod 16)). split; [lia|apply in_seq; lia].
Qed.
