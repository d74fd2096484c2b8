From Coq Require Import Reals Lra.
From Flocq Require Import Core IEEE754.Binary IEEE754.Bits.
From Verif Require Import Base UbxVar_model Signals_model Double_model Double_proofs UbxObs_model.
Open Scope Z_scope.

(** ** splitting *)
Lemma split_loop_nth {T O} (t : T) (obs : list O) total n : forall k i,
  nth_error (split_loop t obs total k n) i =
  if Nat.ltb i n then Some (mk_obs_msg t ((total * 16 + (k + Z.of_nat i)) mod 256) (take 14 (drop ((k + Z.of_nat i) * 14) obs))) else None.
Proof.
  induction n as [|n IH]; intros k i; cbn [split_loop].
  - destruct i; reflexivity.
  - destruct i as [|i]; cbn [nth_error].
    + replace (k + Z.of_nat 0) with k by lia. reflexivity.
    + rewrite IH. replace (k + 1 + Z.of_nat i) with (k + Z.of_nat (S i)) by lia. reflexivity.
Qed.
Lemma split_loop_concat {T O} (t : T) (obs : list O) total n : forall k, 0 <= k ->
  len obs <= (k + Z.of_nat n) * 14 ->
  concat (map om_obs (split_loop t obs total k n)) = drop (k * 14) obs.
Proof.
  induction n as [|n IH]; intros k Hk Hl; cbn [split_loop map concat om_obs].
  - rewrite drop_all by lia. reflexivity.
  - rewrite IH by lia. replace ((k + 1) * 14) with (k * 14 + 14) by lia. rewrite <- drop_drop by lia. apply take_drop.
Qed.
Lemma fill_all_spec elt l : forall os, fill_all elt l = Some os -> Forall2 (fun m o => fill_obs elt m = Some o) l os.
Proof.
  induction l as [|m r IH]; intros os H; cbn [fill_all] in H.
  - assert (os = []) by congruence. subst. constructor.
  - destruct (fill_obs elt m) as [o|] eqn:E; [|discriminate]. destruct (fill_all elt r) as [os'|]; [|discriminate].
    assert (os = o :: os') by congruence. subst. constructor; [exact E | apply IH; reflexivity].
Qed.

(** ** real-number facts *)
Lemma floor_bounds x : (0 <= x - IZR (Zfloor x) < 1)%R.
Proof. pose proof (Zfloor_lb x). pose proof (Zfloor_ub x). lra. Qed.
Lemma bp0 : bpow radix2 0 = 1%R. Proof. reflexivity. Qed.
Lemma rnd01 y : (0 <= y <= 1)%R -> (0 <= rnd y <= 1)%R.
Proof.
  intros [A B]. split.
  - apply (rnd_ge_z _ 0); [lia|exact A].
  - apply (rnd_le_z _ 1); [lia|exact B].
Qed.
(** the fraction computed by both packing functions, for a finite x whose floor is an int32 *)
Lemma frac_spec x li : dfin x = true -> dfloor x = Some li -> Z.abs li <= 2 ^ 31 ->
  exists f, dround (dmul (dsub x (dofZ li)) (dofZ 256)) = Some f /\ 0 <= f <= 256 /\
    (Rabs (IZR li + IZR f / 256 - dR x) <= / 512 + bpow radix2 (-52))%R.
Proof.
  intros Fx E Hl. rewrite dfloor_spec in E by exact Fx. assert (Eli : li = Zfloor (dR x)) by congruence.
  pose proof (floor_bounds (dR x)) as FB. rewrite <- Eli in FB.
  destruct (dofZ_exact li ltac:(lia)) as [F1 R1]. destruct (dofZ_exact 256 ltac:(lia)) as [F2 R2].
  assert (B1000 : (1 <= bpow radix2 1000)%R) by (rewrite <- bp0; apply bpow_le; lia).
  destruct (dsub_spec x (dofZ li) Fx F1) as [F3 R3].
  { rewrite R1. rewrite Rabs_pos_eq; lra. }
  rewrite R1 in R3. pose proof (rnd01 (dR x - IZR li) ltac:(lra)) as Y. rewrite <- R3 in Y.
  destruct (dmul_spec _ _ F3 F2) as [F4 R4].
  { rewrite R2. rewrite Rabs_pos_eq by lra. apply Rle_trans with (bpow radix2 8); [change (bpow radix2 8) with 256%R; lra | apply bpow_le; lia]. }
  rewrite R2 in R4.
  destruct (proj2 (dint_fin zra (dmul (dsub x (dofZ li)) (dofZ 256))) F4) as [f Ef]. fold (dround (dmul (dsub x (dofZ li)) (dofZ 256))) in Ef.
  exists f. split; [exact Ef|]. pose proof (dround_close _ _ Ef) as Cl.
  assert (E1 : (Rabs (dR (dsub x (dofZ li)) - (dR x - IZR li)) <= bpow radix2 (-54))%R).
  { rewrite R3. apply (rnd_err _ 0); [lia|]. rewrite bp0, Rabs_pos_eq; lra. }
  assert (E2 : (Rabs (dR (dmul (dsub x (dofZ li)) (dofZ 256)) - dR (dsub x (dofZ li)) * 256) <= bpow radix2 (-45))%R).
  { rewrite R4. apply (rnd_err _ 9); [lia|]. rewrite Rabs_pos_eq by lra. change (bpow radix2 9) with 512%R. lra. }
  assert (Z : (0 <= dR (dmul (dsub x (dofZ li)) (dofZ 256)) <= 256)%R).
  { rewrite R4. split.
    - apply (rnd_ge_z _ 0); [lia|lra].
    - apply (rnd_le_z _ 256); [lia|lra]. }
  apply Rabs_le_inv in Cl. apply Rabs_le_inv in E1. apply Rabs_le_inv in E2.
  split.
  - assert (A1 : (-1 < IZR f)%R) by lra. assert (A2 : (IZR f < 257)%R) by lra.
    change (-1)%R with (IZR (-1)) in A1. apply lt_IZR in A1. apply lt_IZR in A2. lia.
  - change (bpow radix2 (-54)) with (/ 18014398509481984)%R in E1. change (bpow radix2 (-45)) with (/ 35184372088832)%R in E2.
    change (bpow radix2 (-52)) with (/ 4503599627370496)%R. apply Rabs_le. lra.
Qed.

Lemma dofflt_exact f : is_finite 24 128 f = true -> dfin (dofflt f) = true /\ dR (dofflt f) = B2R 24 128 f.
Proof.
  destruct f as [s|s|s pl H|s m e H]; cbn [is_finite]; intros F; try discriminate.
  - split; reflexivity.
  - cbn [dofflt]. pose proof (binary_normalize_correct 53 1024 eq_refl eq_refl mode_NE (cond_Zopp s (Z.pos m)) e s) as N.
    set (v := F2R (Float radix2 (cond_Zopp s (Z.pos m)) e)) in *.
    assert (B : SpecFloat.bounded 24 128 m e = true) by exact H.
    assert (G : generic_format radix2 (FLT_exp (-1074) 53) v).
    { apply generic_format_FLT. exists (Float radix2 (cond_Zopp s (Z.pos m)) e); [reflexivity| |]; cbn [Fnum Fexp].
      - rewrite abs_cond_Zopp. apply andb_prop in B. destruct B as [B _]. apply Zeq_bool_eq in B. 
        rewrite (Digits.Zpos_digits2_pos m) in B. unfold SpecFloat.fexp, SpecFloat.emin in B.
        pose proof (Digits.Zdigits_correct radix2 (Z.pos m)) as [_ D]. change (Z.abs (Z.pos m)) with (Z.pos m) in *.
        eapply Z.lt_le_trans; [exact D|]. apply Zpower_le. lia.
      - apply andb_prop in B. destruct B as [B _]. apply Zeq_bool_eq in B. unfold SpecFloat.fexp, SpecFloat.emin in B. lia. }
    assert (S : (Rabs v <= bpow radix2 1000)%R).
    { apply Rle_trans with (bpow radix2 128); [|apply bpow_le; lia]. left. exact (abs_B2R_lt_emax 24 128 (B754_finite 24 128 s m e H)). }
    rewrite Rlt_bool_true in N by (apply rnd_bound; exact S). destruct N as (N1 & N2 & _). split; [exact N2|].
    unfold dR. rewrite N1. change (round radix2 (SpecFloat.fexp 53 1024) (BinarySingleNaN.round_mode mode_NE) v) with (rnd v).
    rewrite rnd_id by exact G. reflexivity.
Qed.
Lemma trunc_nonneg x : (0 <= x)%R -> (IZR (Ztrunc x) <= x < IZR (Ztrunc x) + 1)%R /\ 0 <= Ztrunc x.
Proof.
  intros H. rewrite Ztrunc_floor by exact H. split; [split; [apply Zfloor_lb|apply Zfloor_ub]|].
  assert (Zfloor 0 <= Zfloor x) by (apply Zfloor_le; exact H). rewrite Zfloor_IZR in H0. exact H0.
Qed.
