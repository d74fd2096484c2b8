(** Proofs about the NovAtel to SBP observations *)
From Coq Require Import Reals Lra.
From Flocq Require Import Core IEEE754.Binary IEEE754.Bits.
From Verif Require Import Base Bytestream_model Double_model Double_proofs Esf_model Signals_model Novatel_model Novatel_spec Novatel_proofs SbpEph_model SbpEph_spec SbpEph_proofs Near_proofs Exact_proofs NovSbp_model NovSbp_spec.
Open Scope Z_scope.

Lemma bit_set_testbit ts k : 0 <= k -> bit_set ts (2 ^ k) = Z.testbit ts k.
Proof. intros K. unfold bit_set. rewrite <- (land_bit ts k K). rewrite Z.shiftl_mul_pow2, Z.mul_1_l by exact K. reflexivity. Qed.
Lemma bit_set_or ts a b : bit_set ts (Z.lor a b) = bit_set ts a || bit_set ts b.
Proof.
  unfold bit_set. rewrite Z.land_lor_distr_r. destruct (Z.eqb_spec (Z.land ts a) 0) as [->|A]; cbn [negb orb].
  - rewrite Z.lor_0_l. reflexivity.
  - destruct (Z.eqb_spec (Z.lor (Z.land ts a) (Z.land ts b)) 0) as [E|]; [|reflexivity]. apply Z.lor_eq_0_iff in E. tauto.
Qed.
Lemma flags_spec ts : obs_flags ts = flag (Z.testbit ts 12) 1 + flag (Z.testbit ts 10 || Z.testbit ts 11) 2 + flag (Z.testbit ts 28) 4 + flag (Z.testbit ts 12) 8.
Proof.
  unfold obs_flags, code_lock. rewrite bit_set_or. change 0x1000 with (2 ^ 12). change 0x400 with (2 ^ 10). change 0x800 with (2 ^ 11). change 0x10000000 with (2 ^ 28).
  rewrite !bit_set_testbit by lia. reflexivity.
Qed.
Lemma mask_field ts o n m : 0 <= o -> 0 <= n -> m = Z.shiftl (Z.ones n) o -> Z.shiftr (Z.land ts m) o = ts / 2 ^ o mod 2 ^ n.
Proof.
  intros O N ->. rewrite Z.shiftr_land, Z.shiftr_shiftl_l, Z.sub_diag by lia. rewrite Z.shiftl_0_r, Z.shiftr_div_pow2, Z.land_ones by lia. reflexivity.
Qed.
Lemma sig_field ts : Z.shiftr (Z.land ts 0x03F00000) 21 = ts / 2 ^ 21 mod 32.
Proof.
  rewrite Z.shiftr_land. change (Z.shiftr 0x03F00000 21) with (Z.ones 5). rewrite Z.shiftr_div_pow2, Z.land_ones by lia. reflexivity.
Qed.
Lemma tracking_code_of r : tracking_code (rc_tracking_status r) = code_of r.
Proof.
  unfold tracking_code. rewrite sig_field. rewrite (mask_field _ 16 3) by (reflexivity || lia). fold (nov_signal r). change (2 ^ 3) with 8. fold (nov_system r).
  unfold code_of. assert (A : 0 <= nov_system r) by (apply Z.mod_pos_bound; lia). assert (B : 0 <= nov_signal r) by (apply Z.mod_pos_bound; lia).
  destruct (nov_system r) as [|p|]; [|destruct p as [p|p|]|lia]; destruct (nov_signal r) as [|q|]; try lia; try reflexivity;
    do 3 (try destruct q as [q|q|]; try reflexivity).
Qed.
Lemma code_of_spec r : nov_code (nov_system r) (nov_signal r) (code_of r) \/ code_of r = CODE_INVALID /\ forall c, ~ nov_code (nov_system r) (nov_signal r) c.
Proof.
  unfold code_of.
  assert (A : 0 <= nov_system r) by (apply Z.mod_pos_bound; lia). assert (B : 0 <= nov_signal r) by (apply Z.mod_pos_bound; lia).
  destruct (nov_system r) as [|p|]; [|destruct p as [p|p|]|lia]; destruct (nov_signal r) as [|q|]; try lia;
    do 3 (try destruct q as [q|q|]; try (left; constructor); try (right; split; [reflexivity|intros c C; inversion C])).
Qed.

Section Obs.
Variables (elt : dbl -> Z) (sid_valid : Z -> code -> bool).
Notation pack_obs := (NovSbp_model.pack_obs elt sid_valid).
Lemma ex_neg x n k : dexact x (scaled n k) -> 0 <= k <= 66 -> Z.abs n < 2 ^ 53 -> dexact (dneg x) (scaled (- n) k).
Proof.
  intros X K N. unfold dneg. replace (- n) with (0 - n) by lia. apply ex_sub; [|exact X|lia|lia].
  replace 0 with (0 * 2 ^ k) at 2 by lia. rewrite <- (Z.add_0_l k) at 2. rewrite <- scaled_up by lia. apply ex_Z. lia.
Qed.
Lemma floor_frac x n : dexact x (scaled n 8) -> Z.abs n < 2 ^ 40 -> dfloor x = Some (n / 256) /\ dround (dmul (dsub x (dofZ (n / 256))) (dofZ 256)) = Some (n mod 256).
Proof.
  intros X N. split; [rewrite (ex_floor x n 8 X) by lia; reflexivity|].
  apply (ex_round_int _ _ 8); [|lia].
  assert (E : n mod 256 * 2 ^ 8 = (n - n / 256 * 2 ^ 8) * 256) by (change (2 ^ 8) with 256; lia). rewrite E.
  apply ex_mul; [|lia|lia|lia]. apply ex_sub; [exact X| |lia|lia]. rewrite <- (Z.add_0_l 8) at 2. rewrite <- scaled_up by lia. apply ex_Z. lia.
Qed.
Lemma pack_obs_spec r : range_fields r ->
  if sendable sid_valid code_of r then exists o, pack_obs r = NPacked o /\ carries elt r o else pack_obs r = NRefused.
Proof.
  intros (T & D & P & A & S & L & C). unfold pack_obs, NovSbp_model.pack_obs, sendable. cbv zeta. rewrite tracking_code_of.
  destruct (sid_valid (rc_prn_slot r) (code_of r)); cbn [negb andb]; [|reflexivity].
  pose proof (ex_div (rc_pseudorange r) 7 ltac:(lia) ltac:(lia)) as XP. change (2 ^ 7) with 128 in XP.
  pose proof (ex_mul _ _ _ 50 XP ltac:(lia) ltac:(lia) ltac:(lia)) as XQ.
  destruct (ex_round _ _ _ XQ ltac:(lia)) as (pfp & EP & BP). rewrite EP. change (2 ^ 7) with 128 in BP.
  rewrite (ex_ltb0 _ _ _ XP) by lia. destruct (Z.ltb_spec (rc_pseudorange r) 0) as [|_]; [lia|]. cbn [orb].
  destruct (Z.ltb_spec (50 * rc_pseudorange r + 64) (128 * 2 ^ 32)) as [PP|PP]; cbn [andb].
  2:{ destruct (Z.ltb_spec (2 ^ 32 - 1) pfp); [reflexivity|]. lia. }
  destruct (Z.ltb_spec (2 ^ 32 - 1) pfp); [lia|].
  pose proof (ex_div (rc_ADR r) 8 ltac:(lia) ltac:(lia)) as XL. change (2 ^ 8) with 256 in XL. apply ex_neg in XL; [|lia|lia].
  destruct (floor_frac _ _ XL ltac:(lia)) as [FL RL]. rewrite FL.
  destruct (Z.ltb_spec (- rc_ADR r / 256) (- 2 ^ 31)); [lia|]. destruct (Z.ltb_spec (2 ^ 31 - 1) (- rc_ADR r / 256)); [lia|]. cbn [orb].
  rewrite RL. destruct (Z.leb_spec 256 (- rc_ADR r mod 256)); [lia|]. cbn [andb].
  pose proof (ex_div (rc_doppler r) 8 ltac:(lia) ltac:(lia)) as XD. change (2 ^ 8) with 256 in XD.
  destruct (floor_frac _ _ XD ltac:(lia)) as [FD RD]. rewrite FD.
  destruct (Z.leb_spec (- 2 ^ 23) (rc_doppler r)) as [D1|D1]; cbn [andb].
  2:{ destruct (Z.ltb_spec (rc_doppler r / 256) (- 2 ^ 15)); [reflexivity|lia]. }
  destruct (Z.ltb_spec (rc_doppler r / 256) (- 2 ^ 15)); [lia|]. cbn [orb].
  destruct (Z.ltb_spec (rc_doppler r) (2 ^ 23)) as [D2|D2].
  2:{ destruct (Z.ltb_spec (2 ^ 15 - 1) (rc_doppler r / 256)); [reflexivity|lia]. }
  destruct (Z.ltb_spec (2 ^ 15 - 1) (rc_doppler r / 256)); [lia|].
  rewrite RD. destruct (Z.leb_spec 256 (rc_doppler r mod 256)); [lia|].
  pose proof (ex_div (rc_lock_time r) 5 ltac:(lia) ltac:(lia)) as XT. change (2 ^ 5) with 32 in XT.
  assert (LK : code_lock (rc_tracking_status r) = Z.testbit (rc_tracking_status r) 12) by (unfold code_lock; change 0x1000 with (2 ^ 12); apply bit_set_testbit; lia).
  assert (Hc : forall c, c = (if Z.testbit (rc_tracking_status r) 12 then 4 * (rc_CN0 r + 20) else 0) ->
    carries elt r (mknobs pfp (- rc_ADR r / 256) (- rc_ADR r mod 256) (rc_doppler r / 256) (rc_doppler r mod 256) c
      (elt (ddiv (dofZ (rc_lock_time r)) (dofZ 32))) (obs_flags (rc_tracking_status r)) (rc_prn_slot r) (code_of r))).
  { intros c ->. unfold carries. cbn [no_P no_Li no_Lf no_Di no_Df no_cn0 no_lock no_flags no_sat no_code].
    repeat apply conj; try lia; try (destruct (Z.testbit (rc_tracking_status r) 12); lia).
    - exists (ddiv (dofZ (rc_lock_time r)) (dofZ 32)). split; [exact XT|reflexivity].
    - apply code_of_spec.
    - apply flags_spec. }
  rewrite LK. destruct (Z.testbit (rc_tracking_status r) 12) eqn:TB.
  - assert (XC : dexact (dadd (dofZ (rc_CN0 r)) (dofZ 20)) (scaled (rc_CN0 r + 20) 0)) by (apply ex_add; [apply ex_Z; lia|apply ex_Z; lia|lia|lia]).
    pose proof (ex_mul _ _ _ 4 XC ltac:(lia) ltac:(lia) ltac:(lia)) as XC4.
    rewrite (ex_round_int _ ((rc_CN0 r + 20) * 4) 0) by (rewrite ?Z.mul_1_r; (exact XC4 || lia)).
    rewrite (ex_ltb0 _ _ _ XC) by lia. destruct (Z.ltb_spec (rc_CN0 r + 20) 0); [lia|]. destruct (Z.ltb_spec 255 ((rc_CN0 r + 20) * 4)); [lia|]. cbn [orb].
    eexists. split; [reflexivity|]. apply Hc. lia.
  - eexists. split; [reflexivity|]. apply Hc. reflexivity.
Qed.
Lemma pack_all_spec l : Forall range_fields l -> exists os, pack_all elt sid_valid l = Some os /\ Forall2 (carries elt) (filter (sendable sid_valid code_of) l) os /\ len os <= len l.
Proof.
  induction 1 as [|r l R _ (os & E & F & N)]; [exists []; repeat split; constructor || reflexivity|].
  cbn [pack_all filter]. pose proof (pack_obs_spec r R) as S. destruct (sendable sid_valid code_of r).
  - destruct S as (o & -> & Co). rewrite E. exists (o :: os). split; [reflexivity|]. split; [constructor; assumption|]. rewrite !len_cons. lia.
  - rewrite S, E. exists os. split; [reflexivity|]. split; [exact F|]. rewrite len_cons. lia.
Qed.
Lemma filter_app' {A} (f : A -> bool) (a b : list A) : filter f (a ++ b) = filter f a ++ filter f b. Proof. apply filter_app. Qed.
Lemma obs_loop_spec wn tow ns total k : forall c l, Forall range_fields l -> 0 <= c -> c + Z.of_nat k <= total <= 15 -> len l <= 14 * Z.of_nat k ->
  exists out, obs_loop elt sid_valid (wn, tow, ns) total c k l = Some out /\ len out = Z.of_nat k /\
    (forall i, 0 <= i < len out -> exists os, znth (OImuAux 0 0 0) i out = OObs wn tow ns (16 * total + (c + i)) os /\ len os <= 14) /\
    Forall2 (carries elt) (filter (sendable sid_valid code_of) l) (flat_map obs_in out).
Proof.
  induction k as [|k IH]; intros c l R C T N.
  - exists []. split; [reflexivity|]. split; [reflexivity|]. split; [intros i I; change (len (@nil nout)) with 0 in I; lia|].
    destruct l as [|r l]; [constructor|]. rewrite len_cons in N. pose proof (len_nonneg l). lia.
  - rewrite Nat2Z.inj_succ in *. cbn [obs_loop].
    assert (RT : Forall range_fields (take 14 l)) by (rewrite <- (take_drop 14 l) in R; apply Forall_app in R; apply R).
    assert (RD : Forall range_fields (drop 14 l)) by (rewrite <- (take_drop 14 l) in R; apply Forall_app in R; apply R).
    destruct (pack_all_spec _ RT) as (os & E & F & NO). rewrite E.
    assert (ND : len (drop 14 l) <= 14 * Z.of_nat k) by (rewrite len_drop; lia).
    destruct (IH (c + 1) (drop 14 l) RD ltac:(lia) ltac:(lia) ND) as (out & EO & LO & MO & FO). rewrite EO.
    eexists. split; [reflexivity|]. split; [rewrite len_cons; lia|]. split.
    + intros i I. rewrite len_cons in I. destruct (Z.eq_dec i 0) as [->|NZ].
      * exists os. rewrite znth_0. rewrite Z.mod_small with (b := 16) by lia. rewrite Z.mod_small by lia. rewrite Z.add_0_r. split; [f_equal; lia|].
        rewrite len_take in NO. lia.
      * rewrite znth_cons by lia. destruct (MO (i - 1) ltac:(lia)) as (os' & Q & B). exists os'. rewrite Q. split; [f_equal; lia|exact B].
    + rewrite <- (take_drop 14 l) at 1. rewrite filter_app. cbn [flat_map obs_in]. apply Forall2_app; assumption.
Qed.
End Obs.
Lemma ms_back ms : 0 <= ms < 2 ^ 31 -> dround (dmul (ddiv (dofZ ms) (dofZ 1000)) (dofZ 1000)) = Some ms.
Proof.
  intros M. assert (V : val (ddiv (dofZ ms) (dofZ 1000)) (IZR ms / 1000) (2 * u53)%R).
  { apply (val_div0 _ _ _ _ 0%R); [apply val_Z; lia|apply val_Z; lia|lra| |lra|lra].
    apply range_mid. replace (IZR ms / 1000)%R with (IZR ms * / 1000)%R by reflexivity. apply prod_range; [lia|]. split.
    - apply Rle_trans with (bpow radix2 (-10)); [apply bpow_le; lia|]. change (bpow radix2 (-10)) with (/ 1024)%R. lra.
    - apply Rle_trans with (bpow radix2 0); [|apply bpow_le; lia]. change (bpow radix2 0) with 1%R. lra. }
  apply (val_round _ ms (6 * u53)%R).
  - apply (val_eq _ (IZR ms / 1000 * 1000)%R); [|field]. assert (0 <= u53 <= / 1000)%R by (unfold u53; lra).
    eapply val_mul; [exact V|apply (val_Z 1000); lia| |nra|nra].
    replace (IZR ms / 1000 * 1000)%R with (IZR ms) by field. apply int_mid. lia.
  - assert (IZR (Z.abs ms) <= IZR (2 ^ 31))%R by (apply IZR_le; lia). change (IZR (2 ^ 31)) with 2147483648%R in *. unfold u53. 
    assert (0 <= IZR (Z.abs ms))%R by (apply IZR_le; lia). lra.
Qed.
Lemma dsub_self x : dfin x = true -> dexact (dsub x x) (scaled 0 0).
Proof.
  intros F. assert (Q : (dR x - dR x = 0)%R) by ring. destruct (dsub_spec x x F F) as [G V]; [rewrite Q, Rabs_R0; apply bpow_ge_0|].
  apply ex_dR. split; [exact G|]. rewrite V, Q, scaled_0. apply rnd_id, generic_format_0.
Qed.
Lemma obs_time_spec h : 0 <= nh_ms h < 2 ^ 31 ->
  obs_time h = Some (if 604800000 <=? nh_ms h then ((nh_week h + 1) mod 65536, nh_ms h - 604800000, 0) else (nh_week h, nh_ms h, 0)).
Proof.
  intros M. unfold obs_time. cbv zeta. rewrite ms_back by exact M. destruct (Z.ltb_spec (nh_ms h) 0); [lia|]. destruct (Z.leb_spec (2 ^ 32) (nh_ms h)); [lia|]. cbn [orb].
  assert (F : dfin (ddiv (dofZ (nh_ms h)) (dofZ 1000)) = true).
  { destruct (dofZ_exact (nh_ms h) ltac:(lia)) as [F V], (dofZ_exact 1000 ltac:(lia)) as [G W]. apply ddiv_spec; [exact F|rewrite W; lra|].
    rewrite V, W. apply Rle_trans with (IZR (nh_ms h)).
    - rewrite Rabs_pos_eq; [|apply Rmult_le_pos; [apply IZR_le; lia|lra]]. assert (0 <= IZR (nh_ms h))%R by (apply IZR_le; lia). lra.
    - apply Rle_trans with (IZR (2 ^ 31)); [apply IZR_le; lia|]. rewrite pow_bpow by lia. apply bpow_le. lia. }
  pose proof (ex_mul _ _ _ 1000000000 (dsub_self _ F) ltac:(lia) ltac:(lia) ltac:(lia)) as X. change (0 * 1000000000) with (0 * 2 ^ 0) in X.
  rewrite (ex_round_int _ _ _ X) by lia. change ((0 <? - 2 ^ 31) || (2 ^ 31 <=? 0)) with false. cbv iota. unfold WEEK_MS. destruct (604800000 <=? nh_ms h); reflexivity.
Qed.
Lemma record_fields enc r : bytes enc -> range_record enc r -> range_fields r.
Proof.
  intros B (L & E). cbv zeta in E. subst r. unfold range_fields. cbn [rc_tracking_status rc_doppler rc_pseudorange rc_ADR rc_prn_slot rc_lock_time rc_CN0].
  pose proof (fun o n => bitfield_range (le_val enc) o n) as Q. unfold twos_of.
  pose proof (Q 0 32 ltac:(lia)). pose proof (Q 32 28 ltac:(lia)). pose proof (Q 60 36 ltac:(lia)). pose proof (Q 96 32 ltac:(lia)).
  pose proof (Q 136 8 ltac:(lia)). pose proof (Q 144 21 ltac:(lia)). pose proof (Q 165 5 ltac:(lia)). clear Q.
  change (2 ^ (28 - 1)) with 134217728. change (2 ^ (32 - 1)) with 2147483648.
  destruct (Z.ltb_spec (bitfield (le_val enc) 32 28) 134217728), (Z.ltb_spec (bitfield (le_val enc) 96 32) 2147483648); repeat apply conj; lia.
Qed.
