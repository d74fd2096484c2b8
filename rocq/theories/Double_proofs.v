(** Correctness of the computable double operations of Double_model.v with respect to the real numbers. *)
From Coq Require Import ZArith Bool Reals Lra.
From Flocq Require Import Core IEEE754.Binary IEEE754.Bits.
From Flocq.Prop Require Import Relative.
From Verif Require Import Base Double_model.
Open Scope Z_scope.

#[global] Instance prec53 : Prec_gt_0 53 := eq_refl.
Definition dR (x : dbl) : R := B2R 53 1024 x.
Definition dfin (x : dbl) : bool := is_finite 53 1024 x.
Definition rnd (x : R) : R := round radix2 (FLT_exp (-1074) 53) ZnearestE x.

Lemma pow_bpow n : 0 <= n -> IZR (2 ^ n) = bpow radix2 n.
Proof. intros. rewrite <- (IZR_Zpower radix2) by lia. reflexivity. Qed.
Lemma F2R_neg n e : e < 0 -> F2R (Float radix2 n e) = (IZR n / IZR (2 ^ (- e)))%R.
Proof.
  intros. unfold F2R. cbn [Fnum Fexp]. rewrite pow_bpow by lia. rewrite bpow_opp. unfold Rdiv. rewrite Rinv_inv. reflexivity.
Qed.
Lemma F2R_pos n e : 0 <= e -> F2R (Float radix2 n e) = IZR (n * 2 ^ e).
Proof. intros. unfold F2R. cbn [Fnum Fexp]. rewrite mult_IZR, pow_bpow by lia. reflexivity. Qed.

Lemma zfl_spec n e : zfl n e = Zfloor (F2R (Float radix2 n e)).
Proof.
  unfold zfl. destruct (Z.leb_spec 0 e).
  - rewrite F2R_pos by lia. rewrite Zfloor_IZR. reflexivity.
  - rewrite F2R_neg by lia. symmetry. apply Zfloor_div. lia.
Qed.
Lemma ztr_spec n e : ztr n e = Ztrunc (F2R (Float radix2 n e)).
Proof.
  unfold ztr. destruct (Z.leb_spec 0 e).
  - rewrite F2R_pos by lia. rewrite Ztrunc_IZR. reflexivity.
  - rewrite F2R_neg by lia. symmetry. apply Ztrunc_div. lia.
Qed.
Lemma dfloor_spec x : dfin x = true -> dfloor x = Some (Zfloor (dR x)).
Proof.
  destruct x; cbn; intros; try discriminate.
  - rewrite Zfloor_IZR. reflexivity.
  - rewrite zfl_spec. reflexivity.
Qed.
Lemma dtrunc_spec x : dfin x = true -> dtrunc x = Some (Ztrunc (dR x)).
Proof.
  destruct x; cbn; intros; try discriminate.
  - rewrite Ztrunc_IZR. reflexivity.
  - rewrite ztr_spec. reflexivity.
Qed.
Lemma dint_fin f x : (exists z, dint f x = Some z) <-> dfin x = true.
Proof. destruct x; cbn; split; intros; try discriminate; try (destruct H; discriminate); eauto. Qed.

Lemma half_lt (a d q : Z) : (0 < d)%Z -> (a / d)%Z = q -> (IZR q <= IZR a / IZR d < IZR q + 1)%R.
Proof.
  intros. subst q. rewrite <- Zfloor_div by lia. split; [apply Zfloor_lb | apply Zfloor_ub].
Qed.
Lemma zre_spec n e : zre n e = ZnearestE (F2R (Float radix2 n e)).
Proof.
  unfold zre. destruct (Z.leb_spec 0 e).
  - rewrite F2R_pos by lia. symmetry. apply Znearest_imp. rewrite Rminus_diag_eq by reflexivity.
    rewrite Rabs_R0. lra.
  - rewrite F2R_neg by lia. cbv zeta. set (d := 2 ^ (- e)). assert (Hd : 0 < d) by (unfold d; lia).
    unfold Znearest. rewrite Zfloor_div by lia.
    assert (HR : (IZR n / IZR d - IZR (n / d) = IZR (n mod d) / IZR d)%R).
    { rewrite (Z.div_mod n d) at 1 by lia. rewrite plus_IZR, mult_IZR. field. apply IZR_neq. lia. }
    rewrite HR. assert (HdR : (0 < IZR d)%R) by (apply IZR_lt; lia).
    assert (HC : forall x y : Z, Rcompare (IZR x / IZR d) (/ 2) = (2 * x ?= d)).
    { intros x _. rewrite <- (Rcompare_mult_r (2 * IZR d)) by lra.
      replace (IZR x / IZR d * (2 * IZR d))%R with (IZR (2 * x)) by (rewrite mult_IZR; field; lra).
      replace (/ 2 * (2 * IZR d))%R with (IZR d) by field. apply Rcompare_IZR. }
    rewrite (HC _ 0). 
    assert (Hceil : 0 < n mod d -> Zceil (IZR n / IZR d) = n / d + 1).
    { intros Hm. rewrite Zceil_floor_neq; rewrite Zfloor_div by lia; [lia|]. intros Heq.
      assert (IZR (n mod d) / IZR d = 0)%R by lra. assert (IZR (n mod d) = 0)%R.
      { apply Rmult_eq_reg_r with (/ IZR d)%R; [lra | apply Rinv_neq_0_compat; lra]. }
      apply eq_IZR in H1. lia. }
    destruct (Z.compare_spec (2 * (n mod d)) d).
    + replace (2 * (n mod d) <? d) with false by lia. replace (d <? 2 * (n mod d)) with false by lia.
      destruct (Z.even (n / d)) eqn:E; cbn [negb]; [reflexivity|]. symmetry. apply Hceil. lia.
    + replace (2 * (n mod d) <? d) with true by lia. reflexivity.
    + replace (2 * (n mod d) <? d) with false by lia. replace (d <? 2 * (n mod d)) with true by lia.
      symmetry. apply Hceil. lia.
Qed.
Lemma drint_spec x : dfin x = true -> drint x = Some (ZnearestE (dR x)).
Proof.
  destruct x; cbn; intros; try discriminate.
  - rewrite (Znearest_imp _ _ 0); [reflexivity|]. rewrite Rminus_0_r, Rabs_R0. lra.
  - rewrite zre_spec. reflexivity.
Qed.
(** round() is within one half *)
Lemma zra_close n e : (Rabs (IZR (zra n e) - F2R (Float radix2 n e)) <= / 2)%R.
Proof.
  unfold zra. destruct (Z.leb_spec 0 e).
  - rewrite F2R_pos by lia. replace (Z.sgn n * (Z.abs n * 2 ^ e)) with (n * 2 ^ e) by nia.
    rewrite Rminus_diag_eq by reflexivity. rewrite Rabs_R0. lra.
  - rewrite F2R_neg by lia. set (d := 2 ^ (- e)). assert (Hd : 0 < d) by (unfold d; lia).
    assert (HdR : (0 < IZR d)%R) by (apply IZR_lt; lia).
    set (q := (2 * Z.abs n + d) / (2 * d)).
    assert (Hq : (2 * d * q <= 2 * Z.abs n + d < 2 * d * q + 2 * d)%Z) by (unfold q; nia).
    assert (HA : (Rabs (IZR q - IZR (Z.abs n) / IZR d) <= / 2)%R).
    { replace (IZR q - IZR (Z.abs n) / IZR d)%R with (IZR (2 * d * q - 2 * Z.abs n) / (2 * IZR d))%R
        by (rewrite minus_IZR, !mult_IZR; field; lra).
      apply Rabs_le. split.
      - apply Rmult_le_reg_r with (2 * IZR d)%R; [lra|]. 
        replace (IZR (2 * d * q - 2 * Z.abs n) / (2 * IZR d) * (2 * IZR d))%R with (IZR (2 * d * q - 2 * Z.abs n)) by (field; lra).
        replace (- / 2 * (2 * IZR d))%R with (IZR (- d)) by (rewrite opp_IZR; field). apply IZR_le. lia.
      - apply Rmult_le_reg_r with (2 * IZR d)%R; [lra|]. 
        replace (IZR (2 * d * q - 2 * Z.abs n) / (2 * IZR d) * (2 * IZR d))%R with (IZR (2 * d * q - 2 * Z.abs n)) by (field; lra).
        replace (/ 2 * (2 * IZR d))%R with (IZR d) by field. apply IZR_le. lia. }
    rewrite mult_IZR. destruct (Z.lt_trichotomy n 0) as [Hn|[Hn|Hn]].
    + replace (Z.sgn n) with (-1) by lia. replace (Z.abs n) with (- n) in HA by lia. rewrite opp_IZR in HA.
      replace (-1 * IZR q - IZR n / IZR d)%R with (- (IZR q - - IZR n / IZR d))%R by (field; lra).
      rewrite Rabs_Ropp. exact HA.
    + subst n. cbn [Z.sgn]. replace (0 * IZR q - 0 / IZR d)%R with 0%R by (field; lra). rewrite Rabs_R0. lra.
    + replace (Z.sgn n) with 1 by lia. replace (Z.abs n) with n in HA by lia. rewrite Rmult_1_l. exact HA.
Qed.
Lemma dround_close x z : dround x = Some z -> (Rabs (IZR z - dR x) <= / 2)%R.
Proof.
  destruct x; cbn; intros H; try discriminate.
  - assert (z = 0) by congruence. subst. rewrite Rminus_0_r, Rabs_R0. lra.
  - assert (z = zra (cond_Zopp s (Zpos m)) e) by congruence. subst. apply zra_close.
Qed.

(** *** the operations *)
Lemma rnd_format x : generic_format radix2 (FLT_exp (-1074) 53) (rnd x).
Proof. apply generic_format_round; typeclasses eauto. Qed.
Lemma dR_format x : generic_format radix2 (FLT_exp (-1074) 53) (dR x).
Proof. exact (generic_format_B2R 53 1024 x). Qed.
Lemma rnd_id x : generic_format radix2 (FLT_exp (-1074) 53) x -> rnd x = x.
Proof. intros. apply round_generic; [typeclasses eauto | assumption]. Qed.
Lemma bpow1000_format : generic_format radix2 (FLT_exp (-1074) 53) (bpow radix2 1000).
Proof. apply generic_format_bpow. unfold FLT_exp. lia. Qed.
Lemma rnd_bound x : (Rabs x <= bpow radix2 1000)%R -> (Rabs (rnd x) < bpow radix2 1024)%R.
Proof.
  intros H. apply Rle_lt_trans with (bpow radix2 1000); [|apply bpow_lt; lia].
  apply abs_round_le_generic; [typeclasses eauto | typeclasses eauto | exact bpow1000_format | exact H].
Qed.
Lemma rnd_le x y : (x <= y)%R -> (rnd x <= rnd y)%R.
Proof. apply round_le; typeclasses eauto. Qed.
Lemma rnd_abs_le x y : generic_format radix2 (FLT_exp (-1074) 53) y -> (Rabs x <= y)%R -> (Rabs (rnd x) <= y)%R.
Proof. intros. apply abs_round_le_generic; auto; typeclasses eauto. Qed.

Lemma dofZ_spec z : Z.abs z <= 2 ^ 1000 -> dfin (dofZ z) = true /\ dR (dofZ z) = rnd (IZR z).
Proof.
  intros Hz. pose proof (binary_normalize_correct 53 1024 eq_refl eq_refl mode_NE z 0 false) as H.
  assert (HF : F2R (Float radix2 z 0) = IZR z) by (unfold F2R; cbn [Fnum Fexp bpow]; ring).
  rewrite HF in H. rewrite Rlt_bool_true in H.
  - destruct H as (H1 & H2 & _). split; [exact H2 | exact H1].
  - apply rnd_bound. rewrite <- abs_IZR, <- pow_bpow by lia. apply IZR_le. exact Hz.
Qed.
Lemma int_format z : Z.abs z <= 2 ^ 53 -> generic_format radix2 (FLT_exp (-1074) 53) (IZR z).
Proof.
  intros H. destruct (Z.eq_dec (Z.abs z) (2 ^ 53)) as [E|E].
  - apply generic_format_abs_inv. rewrite <- abs_IZR, E. rewrite pow_bpow by lia. apply generic_format_bpow. unfold FLT_exp. lia.
  - apply generic_format_FLT. exists (Float radix2 z 0).
    + unfold F2R; cbn [Fnum Fexp bpow]; ring.
    + cbn [Fnum]. change (radix_val radix2 ^ 53) with (2 ^ 53). lia.
    + cbn [Fexp]. lia.
Qed.
Lemma rnd_le_z x z : Z.abs z <= 2 ^ 53 -> (x <= IZR z)%R -> (rnd x <= IZR z)%R.
Proof. intros H L. apply Rle_trans with (rnd (IZR z)); [apply rnd_le; exact L | rewrite rnd_id; [lra | apply int_format; exact H]]. Qed.
Lemma rnd_ge_z x z : Z.abs z <= 2 ^ 53 -> (IZR z <= x)%R -> (IZR z <= rnd x)%R.
Proof. intros H L. apply Rle_trans with (rnd (IZR z)); [rewrite rnd_id; [lra | apply int_format; exact H] | apply rnd_le; exact L]. Qed.
Lemma dofZ_exact z : Z.abs z <= 2 ^ 53 -> dfin (dofZ z) = true /\ dR (dofZ z) = IZR z.
Proof.
  intros H. assert (H' : Z.abs z <= 2 ^ 1000) by (assert (2 ^ 53 <= 2 ^ 1000) by (apply Z.pow_le_mono_r; lia); lia).
  destruct (dofZ_spec z H') as [H1 H2]. split; [exact H1|]. rewrite H2. apply rnd_id, int_format, H.
Qed.
Lemma dscale_spec m e : (Rabs (IZR m * bpow radix2 e) <= bpow radix2 1000)%R ->
  dfin (dscale m e) = true /\ dR (dscale m e) = rnd (IZR m * bpow radix2 e).
Proof.
  intros Hz. pose proof (binary_normalize_correct 53 1024 eq_refl eq_refl mode_NE m e false) as H.
  change (F2R (Float radix2 m e)) with (IZR m * bpow radix2 e)%R in H. rewrite Rlt_bool_true in H.
  - destruct H as (H1 & H2 & _). split; [exact H2 | exact H1].
  - apply rnd_bound. exact Hz.
Qed.
Lemma dmul_spec x y : dfin x = true -> dfin y = true -> (Rabs (dR x * dR y) <= bpow radix2 1000)%R ->
  dfin (dmul x y) = true /\ dR (dmul x y) = rnd (dR x * dR y).
Proof.
  intros Fx Fy Hb. pose proof (Bmult_correct 53 1024 eq_refl eq_refl binop_nan_pl64 mode_NE x y) as H.
  rewrite Rlt_bool_true in H.
  - destruct H as (H1 & H2 & _). split; [|exact H1]. unfold dfin, dmul, b64_mult. cbv zeta. rewrite H2.
    unfold dfin in Fx, Fy. rewrite Fx, Fy. reflexivity.
  - apply rnd_bound. exact Hb.
Qed.
Lemma ddiv_spec x y : dfin x = true -> dR y <> 0%R -> (Rabs (dR x / dR y) <= bpow radix2 1000)%R ->
  dfin (ddiv x y) = true /\ dR (ddiv x y) = rnd (dR x / dR y).
Proof.
  intros Fx Hy Hb. pose proof (Bdiv_correct 53 1024 eq_refl eq_refl binop_nan_pl64 mode_NE x y Hy) as H.
  rewrite Rlt_bool_true in H.
  - destruct H as (H1 & H2 & _). split; [|exact H1]. unfold dfin, ddiv, b64_div. cbv zeta. rewrite H2. exact Fx.
  - apply rnd_bound. exact Hb.
Qed.
Lemma dadd_spec x y : dfin x = true -> dfin y = true -> (Rabs (dR x + dR y) <= bpow radix2 1000)%R ->
  dfin (dadd x y) = true /\ dR (dadd x y) = rnd (dR x + dR y).
Proof.
  intros Fx Fy Hb. pose proof (Bplus_correct 53 1024 eq_refl eq_refl binop_nan_pl64 mode_NE x y Fx Fy) as H.
  rewrite Rlt_bool_true in H.
  - destruct H as (H1 & H2 & _). split; [exact H2 | exact H1].
  - apply rnd_bound. exact Hb.
Qed.
Lemma dsub_spec x y : dfin x = true -> dfin y = true -> (Rabs (dR x - dR y) <= bpow radix2 1000)%R ->
  dfin (dsub x y) = true /\ dR (dsub x y) = rnd (dR x - dR y).
Proof.
  intros Fx Fy Hb. pose proof (Bminus_correct 53 1024 eq_refl eq_refl binop_nan_pl64 mode_NE x y Fx Fy) as H.
  rewrite Rlt_bool_true in H.
  - destruct H as (H1 & H2 & _). split; [exact H2 | exact H1].
  - apply rnd_bound. exact Hb.
Qed.
(** absolute error of one rounding of a value below 2^k *)
Lemma rnd_err x k : -1021 <= k -> (Rabs x < bpow radix2 k)%R -> (Rabs (rnd x - x) <= bpow radix2 (k - 54))%R.
Proof.
  intros Hk Hx. destruct (Req_dec x 0) as [->|Hn].
  - unfold rnd. rewrite round_0 by typeclasses eauto. rewrite Rminus_0_r, Rabs_R0. apply bpow_ge_0.
  - eapply Rle_trans; [apply error_le_half_ulp; typeclasses eauto|].
    rewrite ulp_neq_0 by assumption. unfold cexp.
    assert (Hm : (mag radix2 x <= k)%Z) by (apply mag_le_bpow; assumption).
    replace (bpow radix2 (k - 54)) with (/ 2 * bpow radix2 (k - 53))%R
      by (replace (k - 53) with (1 + (k - 54)) by lia; rewrite bpow_plus; change (bpow radix2 1) with 2%R; field).
    apply Rmult_le_compat_l; [lra|]. apply bpow_le. unfold FLT_exp. lia.
Qed.
(** relative error of one rounding of a normal value *)
Lemma rnd_rel x : (bpow radix2 (-1000) <= Rabs x)%R -> exists eps, (Rabs eps <= bpow radix2 (-53))%R /\ rnd x = (x * (1 + eps))%R.
Proof.
  intros H. destruct (relative_error_N_FLT_ex radix2 (-1074) 53 prec53 (fun z => negb (Z.even z)) x) as (eps & H1 & H2).
  - eapply Rle_trans; [|exact H]. apply bpow_le. lia.
  - exists eps. split; [|exact H2]. eapply Rle_trans; [exact H1|].
    change (bpow radix2 (- (53) + 1)) with (bpow radix2 (1 + -53)). rewrite bpow_plus. change (bpow radix2 1) with 2%R.
    apply Req_le. field.
Qed.
