(** Relative-error calculus for double and single precision expressions: [val x a E] says that the double x is finite and equals a * (1 + e), |e| <= E. *)
From Coq Require Import Reals Lra.
From Flocq Require Import Core Relative IEEE754.Binary IEEE754.Bits.
From Verif Require Import Base Double_model Double_proofs UbxObs_model UbxObs_proofs Esf_model Esf_proofs Ixcom_model Ixcom_float_proofs Tables_model Tables_proofs SbpEph_model.
Open Scope R_scope.

Definition near (x a E : R) : Prop := exists e, Rabs e <= E /\ x = a * (1 + e).
Definition val (x : dbl) (a E : R) : Prop := dfin x = true /\ near (dR x) a E.
Definition mid (a : R) : Prop := a = 0 \/ bpow radix2 (-900) <= Rabs a <= bpow radix2 900.
Definition u53 : R := / 9007199254740992.
Definition u24 : R := / 16777216.
Lemma u53_bpow : bpow radix2 (-53) = u53. Proof. reflexivity. Qed.

Lemma near_zero a E : 0 <= E -> near a a E.
Proof. intros H. exists 0. rewrite Rabs_R0. split; [exact H|ring]. Qed.
Lemma near_weaken x a E F : near x a E -> E <= F -> near x a F.
Proof. intros (e & B & H) L. exists e. split; [lra|exact H]. Qed.
Lemma near_trans x a b E F : near x a E -> near a b F -> near x b (E + F + E * F).
Proof.
  intros (e & B & H) (f & C & K). exists (e + f + e * f). split; [|subst; ring].
  eapply Rle_trans; [apply Rabs_triang|]. eapply Rle_trans; [apply Rplus_le_compat_r, Rabs_triang|]. rewrite Rabs_mult.
  pose proof (Rabs_pos e). pose proof (Rabs_pos f). apply Rplus_le_compat; [lra|]. apply Rmult_le_compat; lra.
Qed.
Lemma near_mul x y a b E F : near x a E -> near y b F -> near (x * y) (a * b) (E + F + E * F).
Proof.
  intros (e & B & H) (f & C & K). exists (e + f + e * f). split; [|subst; ring].
  eapply Rle_trans; [apply Rabs_triang|]. eapply Rle_trans; [apply Rplus_le_compat_r, Rabs_triang|]. rewrite Rabs_mult.
  pose proof (Rabs_pos e). pose proof (Rabs_pos f). apply Rplus_le_compat; [lra|]. apply Rmult_le_compat; lra.
Qed.
Lemma near_div x y a b E F : near x a E -> near y b F -> b <> 0 -> F <= / 2 -> near (x / y) (a / b) (2 * (E + F)).
Proof.
  intros (e & B & H) (f & C & K) NB L. pose proof (Rabs_le_inv _ _ C) as CF.
  exists ((e - f) / (1 + f)). split; [|subst; field; split; [lra|exact NB]].
  unfold Rdiv. rewrite Rabs_mult, Rabs_inv, (Rabs_pos_eq (1 + f)) by lra.
  apply Rle_trans with ((E + F) * 2); [|lra]. apply Rmult_le_compat; [apply Rabs_pos|left; apply Rinv_0_lt_compat; lra| |].
  - unfold Rminus. eapply Rle_trans; [apply Rabs_triang|]. rewrite Rabs_Ropp. lra.
  - rewrite <- (Rinv_inv 2). apply Rinv_le; lra.
Qed.
Lemma near_abs x a E : near x a E -> E <= 1 / 2 -> Rabs a / 2 <= Rabs x <= 2 * Rabs a.
Proof.
  intros (e & B & ->) L. apply Rabs_le_inv in B. rewrite Rabs_mult, (Rabs_pos_eq (1 + e)) by lra. pose proof (Rabs_pos a). split.
  - apply Rle_trans with (Rabs a * (1 / 2)); [lra|]. apply Rmult_le_compat_l; lra.
  - apply Rle_trans with (Rabs a * 2); [|lra]. apply Rmult_le_compat_l; lra.
Qed.
Lemma mid_near x a E : mid a -> near x a E -> E <= 1 / 2 -> x = 0 \/ bpow radix2 (-1000) <= Rabs x <= bpow radix2 1000.
Proof.
  intros [-> | [L U]] N H; [left; destruct N as (e & _ & ->); ring|right]. destruct (near_abs _ _ _ N H) as [A B].
  assert (bpow radix2 (-1000) <= bpow radix2 (-900) / 2).
  { replace (bpow radix2 (-900) / 2) with (bpow radix2 (-901)); [apply bpow_le; lia|]. change (-901)%Z with (-900 + -1)%Z. rewrite bpow_plus. change (bpow radix2 (-1)) with (/ 2). reflexivity. }
  assert (2 * bpow radix2 900 <= bpow radix2 1000).
  { replace (2 * bpow radix2 900) with (bpow radix2 901); [apply bpow_le; lia|]. change (901)%Z with (1 + 900)%Z. rewrite bpow_plus. reflexivity. }
  lra.
Qed.
Lemma rnd_near x : x = 0 \/ bpow radix2 (-1000) <= Rabs x <= bpow radix2 1000 -> near (rnd x) x u53.
Proof.
  intros [-> | [L _]].
  - exists 0. rewrite Rabs_R0. split; [unfold u53; lra|]. unfold rnd. rewrite round_0 by typeclasses eauto. ring.
  - destruct (rnd_rel x L) as (e & B & H). exists e. split; [exact B|exact H].
Qed.
Lemma big_abs x : x = 0 \/ bpow radix2 (-1000) <= Rabs x <= bpow radix2 1000 -> Rabs x <= bpow radix2 1000.
Proof. intros [-> | [_ H]]; [rewrite Rabs_R0; apply bpow_ge_0|exact H]. Qed.

Lemma val_weaken x a E F : val x a E -> E <= F -> val x a F.
Proof. intros [H N] L. split; [exact H|eapply near_weaken; eassumption]. Qed.
Lemma val_eq x a b E : val x a E -> a = b -> val x b E. Proof. intros H <-. exact H. Qed.
Lemma val_Z n : (Z.abs n <= 2 ^ 53)%Z -> val (dofZ n) (IZR n) 0.
Proof. intros H. destruct (dofZ_exact n H) as [F V]. split; [exact F|]. rewrite V. apply near_zero. lra. Qed.
Lemma val_mul x y a b E F G : val x a E -> val y b F -> mid (a * b) -> E + F + E * F <= / 4 -> E + F + E * F + 2 * u53 <= G -> val (dmul x y) (a * b) G.
Proof.
  intros [FX NX] [FY NY] M S B. pose proof (near_mul _ _ _ _ _ _ NX NY) as N.
  pose proof (mid_near _ _ _ M N ltac:(lra)) as K. destruct (dmul_spec x y FX FY (big_abs _ K)) as [FM VM]. split; [exact FM|]. rewrite VM.
  eapply near_weaken; [eapply near_trans; [apply rnd_near; exact K|exact N]|]. unfold u53 in *. nra.
Qed.
Lemma val_div x y a b E F G : val x a E -> val y b F -> b <> 0 -> mid (a / b) -> F <= / 2 -> 2 * (E + F) <= / 4 -> 2 * (E + F) + 2 * u53 <= G -> val (ddiv x y) (a / b) G.
Proof.
  intros [FX NX] [FY NY] NB M L S B. pose proof (near_div _ _ _ _ _ _ NX NY NB L) as N.
  pose proof (mid_near _ _ _ M N ltac:(lra)) as K.
  assert (NZ : dR y <> 0). { destruct NY as (f & C & ->). apply Rabs_le_inv in C. intros Q. apply Rmult_integral in Q. lra. }
  destruct (ddiv_spec x y FX NZ (big_abs _ K)) as [FM VM]. split; [exact FM|]. rewrite VM.
  eapply near_weaken; [eapply near_trans; [apply rnd_near; exact K|exact N]|]. unfold u53 in *. nra.
Qed.

Lemma rnd32_near x : x = 0 \/ bpow radix2 (-120) <= Rabs x -> near (rnd32 x) x u24.
Proof.
  intros [-> | L].
  - exists 0. rewrite Rabs_R0. split; [unfold u24; lra|]. unfold rnd32. rewrite round_0 by typeclasses eauto. ring.
  - destruct (relative_error_N_FLT_ex radix2 (-149) 24 ltac:(reflexivity) (fun x => negb (Z.even x)) x) as (e & B & H).
    + eapply Rle_trans; [|exact L]. apply bpow_le. lia.
    + exists e. split; [eapply Rle_trans; [exact B|]|exact H]. change (bpow radix2 (- (24) + 1)) with (/ 8388608). unfold u24. lra.
Qed.
Lemma f32_spec x : dfin x = true -> Rabs (dR x) <= bpow radix2 100 -> ffin (f32 x) = true /\ fR (f32 x) = rnd32 (dR x).
Proof.
  intros F B. destruct x as [s|s|s pl Hp|s m e Hb]; try discriminate.
  - split; [reflexivity|]. cbn [dR B2R fR f32]. unfold rnd32. rewrite round_0 by typeclasses eauto. reflexivity.
  - cbn [f32]. pose proof (binary_normalize_correct 24 128 eq_refl eq_refl mode_NE (cond_Zopp s (Z.pos m)) e s) as N.
    change (F2R (Float radix2 (cond_Zopp s (Z.pos m)) e)) with (dR (B754_finite 53 1024 s m e Hb)) in N. rewrite Rlt_bool_true in N.
    + destruct N as (N1 & N2 & _). split; [exact N2|]. exact N1.
    + apply rnd32_bound. exact B.
Qed.
Lemma val_round x n E : val x (IZR n) E -> IZR (Z.abs n) * E < / 2 -> dround x = Some n.
Proof.
  intros [F (e & B & H)] L. assert (F' := F). apply (dint_fin zra) in F'. destruct F' as (z & Q). change (dint zra) with dround in Q. rewrite Q. f_equal.
  pose proof (dround_close _ _ Q) as C. rewrite H in C.
  assert (D : Rabs (IZR (z - n)) < 1).
  { rewrite minus_IZR. replace (IZR z - IZR n) with ((IZR z - IZR n * (1 + e)) + IZR n * e) by ring.
    eapply Rle_lt_trans; [apply Rabs_triang|]. rewrite Rabs_mult, <- abs_IZR.
    assert (IZR (Z.abs n) * Rabs e <= IZR (Z.abs n) * E) by (apply Rmult_le_compat_l; [apply IZR_le; lia|exact B]). lra. }
  rewrite <- abs_IZR in D. apply lt_IZR in D. lia.
Qed.
(** sharper forms *)
Lemma val_f32_sharp x a E G : val x a E -> (a = 0 \/ bpow radix2 (-110) <= Rabs a <= bpow radix2 90) -> E <= / 4 -> E + u24 * (1 + E) <= G -> val (dofflt (f32 x)) a G.
Proof.
  intros [FX NX] M S B.
  assert (K : dR x = 0 \/ bpow radix2 (-120) <= Rabs (dR x) <= bpow radix2 100).
  { destruct M as [-> | [L U]]; [left; destruct NX as (e & _ & ->); ring|right]. destruct (near_abs _ _ _ NX ltac:(lra)) as [A1 A2].
    assert (bpow radix2 (-120) <= bpow radix2 (-110) / 2).
    { replace (bpow radix2 (-110) / 2) with (bpow radix2 (-111)); [apply bpow_le; lia|]. change (-111)%Z with (-110 + -1)%Z. rewrite bpow_plus. change (bpow radix2 (-1)) with (/ 2). reflexivity. }
    assert (2 * bpow radix2 90 <= bpow radix2 100).
    { replace (2 * bpow radix2 90) with (bpow radix2 91); [apply bpow_le; lia|]. change (91)%Z with (1 + 90)%Z. rewrite bpow_plus. reflexivity. }
    lra. }
  destruct (f32_spec x FX) as [F V]; [destruct K as [-> | K]; [rewrite Rabs_R0; apply bpow_ge_0|lra]|].
  destruct (dofflt_exact (f32 x) F) as [F2 V2]. split; [exact F2|]. change (B2R 24 128 (f32 x)) with (fR (f32 x)) in V2. rewrite V2, V.
  eapply near_weaken; [eapply near_trans; [apply rnd32_near; destruct K as [K|K]; [left; exact K|right; lra]|exact NX]|]. lra.
Qed.
Lemma near_div0 x b a E : near x a E -> b <> 0 -> near (x / b) (a / b) E.
Proof. intros (e & B & ->) NB. exists e. split; [exact B|field; exact NB]. Qed.
Lemma val_div0 x y a b E G : val x a E -> val y b 0 -> b <> 0 -> mid (a / b) -> E <= / 4 -> E + 2 * u53 <= G -> val (ddiv x y) (a / b) G.
Proof.
  intros [FX NX] [FY NY] NB M S B.
  assert (VY : dR y = b). { destruct NY as (f & C & ->). assert (f = 0) by (apply Rabs_le_inv in C; lra). subst. ring. }
  rewrite <- VY in NB. assert (N : near (dR x / dR y) (a / dR y) E) by (apply near_div0; assumption). rewrite VY in N.
  pose proof (mid_near _ _ _ M N ltac:(lra)) as K. rewrite <- VY in K.
  destruct (ddiv_spec x y FX NB (big_abs _ K)) as [FM VM]. split; [exact FM|]. rewrite VM, <- VY in *.
  eapply near_weaken; [eapply near_trans; [apply rnd_near; exact K|exact N]|]. unfold u53 in *. nra.
Qed.
Lemma val_self x : dfin x = true -> val x (dR x) 0.
Proof. intros F. split; [exact F|apply near_zero; lra]. Qed.
(** n * q for an integer n below 2^53 and a quantum q between 2^-80 and 2^20 *)
Lemma prod_range n q : (Z.abs n <= 2 ^ 53)%Z -> bpow radix2 (-80) <= q <= bpow radix2 20 -> IZR n * q = 0 \/ bpow radix2 (-110) <= Rabs (IZR n * q) <= bpow radix2 90.
Proof.
  intros N [L U]. destruct (Z.eq_dec n 0) as [-> | Z]; [left; ring|right]. pose proof (bpow_gt_0 radix2 (-80)).
  rewrite Rabs_mult, (Rabs_pos_eq q), <- abs_IZR by lra. split.
  - apply Rle_trans with (1 * bpow radix2 (-80)); [rewrite Rmult_1_l; apply bpow_le; lia|]. apply Rmult_le_compat; [lra|lra|apply IZR_le; lia|lra].
  - apply Rle_trans with (bpow radix2 53 * bpow radix2 20); [|rewrite <- bpow_plus; apply bpow_le; lia].
    apply Rmult_le_compat; [apply IZR_le; lia|lra| |lra]. rewrite <- pow_bpow by lia. apply IZR_le. exact N.
Qed.
Lemma range_mid a : a = 0 \/ bpow radix2 (-110) <= Rabs a <= bpow radix2 90 -> mid a.
Proof. intros [H | [L U]]; [left; exact H|right]. split; [eapply Rle_trans; [|exact L]; apply bpow_le; lia|eapply Rle_trans; [exact U|]; apply bpow_le; lia]. Qed.
Lemma int_mid n : (Z.abs n <= 2 ^ 53)%Z -> mid (IZR n).
Proof. intros H. replace (IZR n) with (IZR n * 1) by ring. apply range_mid, prod_range; [exact H|]. change 1 with (bpow radix2 0). split; apply bpow_le; lia. Qed.
