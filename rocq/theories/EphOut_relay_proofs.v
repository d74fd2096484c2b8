From Coq Require Import Reals Lra.
From Flocq Require Import Core IEEE754.Binary IEEE754.Bits.
From Verif Require Import Base Bitstring Bitstream_model Bitstream_proofs Double_model Double_proofs UbxObs_model UbxObs_proofs Ixcom_model Tables_model Tables_spec RtcmStation_model RtcmStation_spec RtcmEph_model RtcmEph_spec RtcmEph_proofs Time_model Time_proofs SbpEph_model SbpEph_spec
  Near_proofs SbpEph_proofs Abs_proofs EphOut_model EphOut_spec EphOut_proofs EphOut_msg_proofs StaConv_wire_proofs Properties_time Properties_sbpeph.
Open Scope Z_scope.

(** ** everything the decoders accept is within the field widths *)
Ltac inv1 :=
  match goal with
  | E : dbind (get_u ?n) _ _ = DOk _ _ |- _ => let v := fresh "v" in let G := fresh "G" in let R := fresh "R" in destruct (dbind_ok _ _ _ _ _ E) as (v & ? & G & R); clear E; apply get_u_inv in G; [|lia]; cbv beta in R
  | E : dbind (get_s ?n) _ _ = DOk _ _ |- _ => let v := fresh "v" in let G := fresh "G" in let R := fresh "R" in destruct (dbind_ok _ _ _ _ _ E) as (v & ? & G & R); clear E; apply get_s_inv in G; [|lia]; cbv beta in R
  | E : dbind (skip ?n) _ _ = DOk _ _ |- _ => let v := fresh "v" in let G := fresh "G" in let R := fresh "R" in destruct (dbind_ok _ _ _ _ _ E) as (v & ? & G & R); clear E G; cbv beta in R
  end.
Lemma run_ok {A} (d : dec A) p m : run_dec d p = Ok m -> exists r, d (bits_of_bytes p) = DOk m r.
Proof. unfold run_dec. destruct (d (bits_of_bytes p)) as [m' r| | |]; try discriminate. intros E. injection E as ->. exists r. reflexivity. Qed.
Lemma expect_ok {A} n (d : dec A) bs m r : expect n d bs = DOk m r -> exists bs', d bs' = DOk m r.
Proof. unfold expect. intros E. destruct (dbind_ok _ _ _ _ _ E) as (v & r1 & _ & Y). destruct (v =? n); [|discriminate]. exists r1. exact Y. Qed.
Lemma accepted_gps p m : run_dec decode_gps p = Ok m -> wf_gps m.
Proof.
  intros E. apply run_ok in E. destruct E as [r E]. unfold decode_gps in E. apply expect_ok in E. destruct E as [bs E]. repeat inv1.
  match goal with H : ret ?x _ = DOk m _ |- _ => unfold ret in H; assert (m = x) as -> by congruence; clear H end.
  unfold wf_gps. kproj. repeat (split; [assumption|]). reflexivity.
Qed.
Lemma accepted_bds p m : run_dec decode_bds p = Ok m -> wf_bds m /\ 5 < e_sat m.
Proof.
  intros E. apply run_ok in E. destruct E as [r E]. unfold decode_bds in E. apply expect_ok in E. destruct E as [bs E]. inv1.
  destruct (Z.leb_spec v 5); [discriminate|]. repeat inv1.
  match goal with H : ret ?x _ = DOk m _ |- _ => unfold ret in H; assert (m = x) as -> by congruence; clear H end.
  unfold wf_bds. kproj. split; [|lia]. repeat (split; [assumption|]). repeat (split; [reflexivity|]). reflexivity.
Qed.
Lemma accepted_inav p m : run_dec decode_inav p = Ok m -> wf_gal m /\ sbits 10 (e_tgd1 m) /\ 0 <= e_health m.
Proof.
  intros E. apply run_ok in E. destruct E as [r E]. unfold decode_inav in E. apply expect_ok in E. destruct E as [bs E]. unfold decode_gal_common in E. repeat inv1.
  match goal with H : dbind (dbind _ _) _ _ = _ |- _ => destruct (dbind_ok _ _ _ _ _ H) as (t & b & GT & YT); clear H end. repeat inv1.
  match goal with H : ret (?a, ?b, ?h) _ = DOk t _ |- _ => unfold ret in H; assert (t = (a, b, h)) as -> by congruence; clear H end.
  match goal with H : ret ?x _ = DOk m _ |- _ => unfold ret in H; assert (m = x) as -> by congruence; clear H end.
  unfold wf_gal. kproj. split; [repeat (split; [first [assumption | reflexivity]|]); reflexivity|]. split; [assumption|]. apply Z.mod_pos_bound. lia.
Qed.
Lemma accepted_fnav p m : run_dec decode_fnav p = Ok m -> wf_gal m /\ e_tgd1 m = 0 /\ 0 <= e_health m.
Proof.
  intros E. apply run_ok in E. destruct E as [r E]. unfold decode_fnav in E. apply expect_ok in E. destruct E as [bs E]. unfold decode_gal_common in E. repeat inv1.
  match goal with H : dbind (dbind _ _) _ _ = _ |- _ => destruct (dbind_ok _ _ _ _ _ H) as (t & b & GT & YT); clear H end. repeat inv1.
  match goal with H : ret (?a, ?b, ?h) _ = DOk t _ |- _ => unfold ret in H; assert (t = (a, b, h)) as -> by congruence; clear H end.
  match goal with H : ret ?x _ = DOk m _ |- _ => unfold ret in H; assert (m = x) as -> by congruence; clear H end.
  unfold wf_gal. kproj. split; [repeat (split; [first [assumption | reflexivity]|]); reflexivity|]. split; [reflexivity|]. apply Z.mod_pos_bound. lia.
Qed.
Lemma get_sm_inv n b v r : 2 <= n -> get_sm n b = DOk v r -> smag n v.
Proof.
  intros N E. unfold get_sm in E. destruct (dbind_ok _ _ _ _ _ E) as (s & r1 & G & E1). cbv beta in E1. destruct (dbind_ok _ _ _ _ _ E1) as (w & r2 & G2 & E2). clear E E1.
  apply get_u_inv in G2; [|lia]. unfold ubits in G2. unfold ret in E2. match type of E2 with DOk ?x _ = _ => assert (v = x) as -> by congruence end.
  unfold smag. repeat match goal with |- context [if ?c then _ else _] => destruct c end; lia.
Qed.
Ltac inv2 := first [inv1 | match goal with
  | E : dbind (get_sm ?n) _ _ = DOk _ _ |- _ => let v := fresh "v" in let G := fresh "G" in let R := fresh "R" in destruct (dbind_ok _ _ _ _ _ E) as (v & ? & G & R); clear E; apply get_sm_inv in G; [|lia]; cbv beta in R end].
Lemma lor_bits a b c : ubits 1 a -> ubits 1 b -> ubits 1 c -> ubits 1 (Z.lor (Z.lor a b) c).
Proof.
  unfold ubits. change (2 ^ 1) with 2. intros. assert (a = 0 \/ a = 1) as [-> | ->] by lia; assert (b = 0 \/ b = 1) as [-> | ->] by lia; assert (c = 0 \/ c = 1) as [-> | ->] by lia; cbn; lia.
Qed.
Lemma accepted_glo p m : run_dec decode_glo p = Ok m -> wf_glo m.
Proof.
  intros E. apply run_ok in E. destruct E as [r E]. unfold decode_glo in E. apply expect_ok in E. destruct E as [bs E]. repeat inv2.
  match goal with H : dbind (if ?c then _ else _) _ _ = _ |- _ => destruct (dbind_ok _ _ _ _ _ H) as (t & b & GT & YT); clear H end.
  assert (T : ubits 1 t). { match type of GT with (if ?c then _ else _) _ = _ => destruct c end; [unfold ret in GT; assert (t = 0) as -> by congruence; unfold ubits; lia|]. clear YT. repeat inv1. match goal with H : get_u 1 _ = DOk t _ |- _ => apply get_u_inv in H; [exact H|lia] end. }
  match goal with H : ret ?x _ = DOk m _ |- _ => unfold ret in H; assert (m = x) as -> by congruence; clear H end.
  unfold wf_glo. cbn [g_sat g_ura g_fit g_health g_gamma g_tau g_d_tau g_t_b g_pos0 g_pos1 g_pos2 g_vel0 g_vel1 g_vel2 g_acc0 g_acc1 g_acc2 g_fcn].
  repeat (split; [first [assumption | apply lor_bits; assumption]|]). assumption.
Qed.

(** ** every ephemeris that came over RTCM is representable (angles not at the very end of their range) *)
Definition inner (n v : Z) : Prop := Z.abs v <= 2 ^ (n - 1) - 2.
Definition inner_angles (m : keph) : Prop :=
  inner 16 (e_dn m) /\ inner 32 (e_m0 m) /\ inner 32 (e_omega0 m) /\ inner 24 (e_omegadot m) /\ inner 32 (e_w m) /\ inner 32 (e_inc m) /\ inner 14 (e_inc_dot m).
Lemma fit_f n k z x : fexact x (scaled z k) -> sbits n z -> fsfit n (unit2 k) x.
Proof.
  intros [F V] B. split; [exact F|]. unfold sfit, fv. rewrite V. unfold scaled. fold (unit2 k). assert (P : (0 < unit2 k)%R) by apply bpow_gt_0.
  replace (IZR z * unit2 k / unit2 k)%R with (IZR z) by (field; lra). unfold sbits in B. split; apply IZR_le; lia.
Qed.
Lemma fit_d n k z x : dexact x (scaled z k) -> sbits n z -> dsfit n (unit2 k) x.
Proof.
  intros [F V] B. split; [exact F|]. unfold sfit, dv. rewrite V. unfold scaled. fold (unit2 k). assert (P : (0 < unit2 k)%R) by apply bpow_gt_0.
  replace (IZR z * unit2 k / unit2 k)%R with (IZR z) by (field; lra). unfold sbits in B. split; apply IZR_le; lia.
Qed.
Lemma fit_u n k z x : dexact x (scaled z k) -> ubits n z -> dufit n (unit2 k) x.
Proof.
  intros [F V] B. split; [exact F|]. unfold ufit, dv. rewrite V. unfold scaled. fold (unit2 k). assert (P : (0 < unit2 k)%R) by apply bpow_gt_0.
  replace (IZR z * unit2 k / unit2 k)%R with (IZR z) by (field; lra). unfold ubits in B. split; apply IZR_le; lia.
Qed.
Lemma fit_r n k z x : radians x (scaled z k) -> 1 <= n <= 32 -> inner n z -> dsfit n (semic k) x.
Proof.
  intros [F V] N B. split; [exact F|]. unfold sfit. assert (P : (0 < bpow radix2 (- k))%R) by apply bpow_gt_0. pose proof pi_pos as PP. assert (S : (0 < semic k)%R) by (apply Rmult_lt_0_compat; lra).
  assert (E : (scaled z k * PI = IZR z * semic k)%R) by (unfold scaled, semic; ring). rewrite E in V. unfold inner in B. assert (2 ^ (n - 1) <= 2 ^ 31) by (apply Z.pow_le_mono_r; lia).
  assert (A : (Rabs (dv x / semic k - IZR z) <= 1)%R).
  { replace (dv x / semic k - IZR z)%R with ((dv x - IZR z * semic k) * / semic k)%R by (field; lra). rewrite Rabs_mult, (Rabs_pos_eq (/ semic k)) by (apply Rlt_le, Rinv_0_lt_compat, S).
    apply Rmult_le_reg_r with (semic k); [exact S|]. rewrite Rmult_assoc, Rinv_l, Rmult_1_r, Rmult_1_l by lra. eapply Rle_trans; [exact V|]. rewrite Rabs_mult, (Rabs_pos_eq (semic k)) by lra.
    assert (Z1 : (Rabs (IZR z) <= 4294967296)%R) by (rewrite <- abs_IZR; apply IZR_le; lia). assert (Rabs (IZR z) * semic k <= 4294967296 * semic k)%R by (apply Rmult_le_compat_r; lra). lra. }
  apply Rabs_le_inv in A. assert (L := IZR_le (- 2 ^ (n - 1)) (z - 1) ltac:(lia)). assert (U := IZR_le (z + 1) (2 ^ (n - 1) - 1) ltac:(lia)). rewrite minus_IZR in L. rewrite plus_IZR in U. lra.
Qed.
Lemma orbit_values_fit w kc kh m s : orbit_values kc kh m s -> orbit_bits w m -> inner_angles m -> orbit_fits w kc kh s.
Proof.
  intros (V1 & V2 & V3 & V4 & V5 & V6 & V7 & V8 & V9 & V10 & V11 & V12 & V13 & V14 & V15) ((B1 & B2 & B3 & B4 & B5 & B6) & (_ & _ & B9 & B10 & _)) (I7 & I8 & I11 & I12 & I13 & I14 & I15).
  split; [eapply fit_f; eassumption|]. split; [eapply fit_f; eassumption|]. split; [eapply fit_f; eassumption|]. split; [eapply fit_f; eassumption|]. split; [eapply fit_f; eassumption|]. split; [eapply fit_f; eassumption|].
  split; [eapply fit_r; [eassumption|lia|assumption]|]. split; [eapply fit_r; [eassumption|lia|assumption]|]. split; [eapply fit_u; eassumption|]. split; [eapply fit_u; eassumption|].
  split; [eapply fit_r; [eassumption|lia|assumption]|]. split; [eapply fit_r; [eassumption|lia|assumption]|]. split; [eapply fit_r; [eassumption|lia|assumption]|]. split; [eapply fit_r; [eassumption|lia|assumption]|].
  eapply fit_r; [eassumption|lia|assumption].
Qed.
Lemma gps_values_fit c adj mw m s : consts_exact c -> wf_gps m -> inner_angles m -> e_toe m < 37800 -> e_toc m < 37800 -> gps_eph_to_sbp c adj mw m = Some s -> gps_representable s.
Proof.
  intros C W I T1 T2 H. destruct (C58_gps_values c adj mw m s C W H) as (VO & (V0 & V1 & V2) & VT & S1 & _ & S3 & S4 & S5 & S6 & S7 & _).
  destruct W as (B1 & B2 & B3 & B4 & B5 & B6 & B7 & B8 & B9 & B10 & B11 & B12 & B13 & B14 & B15 & B16 & B17 & B18 & B19 & B20 & B21 & B22 & B23 & B24 & B25 & B26 & B27 & B28 & B29 & B30).
  unfold gps_representable. split; [apply (orbit_values_fit 16 5 29 m s VO); [unfold orbit_bits; tauto|exact I]|].
  split; [split; [eapply fit_d; eassumption|split; [eapply fit_d; eassumption|eapply fit_f; eassumption]]|]. split; [eapply fit_f; eassumption|].
  rewrite S1, S3, S4, S5, S6, S7. unfold ubits in B1, B6, B7, B11, B19, B28. cbn in B1, B6, B7, B11, B19, B28.
  split; [lia|]. split; [lia|]. split; [lia|]. split; [lia|]. split; [lia|]. split; [rewrite Z.mul_comm; apply Z.mod_mul; lia|]. split; [lia|rewrite Z.mul_comm; apply Z.mod_mul; lia].
Qed.
Lemma gal_values_fit c adj mw m src s h : consts_exact c -> wf_gal m -> sbits 10 (e_tgd1 m) -> 0 <= e_health m < h -> inner_angles m -> e_toe m < 10080 -> e_toc m < 10080 ->
  gal_eph_to_sbp c adj mw m src = Some s -> s_toe_wn s = e_wn m + 1024 -> gal_representable h s.
Proof.
  intros C W T HH I T1 T2 H K. destruct (C58_gal_values c adj mw m src s C W T H) as (VO & (V0 & V1 & V2) & VT & VT' & S1 & _ & S3 & S4 & S5 & S6 & S7 & _).
  destruct W as (B1 & B2 & B3 & B4 & B5 & B6 & B7 & B8 & B9 & B10 & B11 & B12 & B13 & B14 & B15 & B16 & B17 & B18 & B19 & B20 & B21 & B22 & B23 & B24 & B25 & B26 & B27 & B28 & B29).
  unfold gal_representable. split; [apply (orbit_values_fit 16 5 29 m s VO); [unfold orbit_bits; tauto|exact I]|].
  split; [split; [eapply fit_d; eassumption|split; [eapply fit_d; eassumption|eapply fit_f; eassumption]]|]. split; [eapply fit_f; eassumption|]. split; [eapply fit_f; eassumption|].
  rewrite S1, S3, S4, S6, S7, K. unfold ubits in B1, B2, B3, B6, B17. cbn in B1, B2, B3, B6, B17.
  split; [lia|]. split; [lia|]. split; [lia|]. split; [lia|]. split; [lia|]. split; [rewrite Z.mul_comm; apply Z.mod_mul; lia|]. split; [lia|rewrite Z.mul_comm; apply Z.mod_mul; lia].
Qed.
(** without leap seconds: the slot is whatever the memory held *)
Lemma glo_out_unknown c eps l s leap junk junk' m : sbp_to_glo_eph c eps l s (Some leap) junk = Some m ->
  sbp_to_glo_eph c eps l s None junk' = Some (mkgeph (g_sat m) (g_ura m) (g_fit m) 1 (g_gamma m) (g_tau m) (g_d_tau m) junk' (g_pos0 m) (g_pos1 m) (g_pos2 m) (g_vel0 m) (g_vel1 m) (g_vel2 m) (g_acc0 m) (g_acc1 m) (g_acc2 m) (g_fcn m)).
Proof.
  unfold sbp_to_glo_eph. intros H. repeat match type of H with match ?x with Some _ => _ | None => None end = _ => destruct x; [|discriminate] end.
  apply Some_inj' in H. subst m. reflexivity.
Qed.
Lemma fit_ns n z x : fclose x (IZR z / 10000000000) -> 2 <= n <= 22 -> inner n z -> fsfit n tenth_ns x.
Proof.
  intros [F V] N B. split; [exact F|]. unfold sfit, fv. unfold inner in B. assert (2 ^ (n - 1) <= 2 ^ 21) by (apply Z.pow_le_mono_r; lia).
  assert (A : (Rabs (B2R 24 128 x / tenth_ns - IZR z) <= 1)%R).
  { unfold tenth_ns. replace (B2R 24 128 x / / 10000000000 - IZR z)%R with ((B2R 24 128 x - IZR z / 10000000000) * 10000000000)%R by field. rewrite Rabs_mult, (Rabs_pos_eq 10000000000) by lra.
    unfold Rdiv in V at 2. rewrite Rabs_mult, (Rabs_pos_eq (/ 10000000000)) in V by lra. assert (Z1 : (Rabs (IZR z) <= 4194304)%R) by (rewrite <- abs_IZR; apply IZR_le; lia). lra. }
  apply Rabs_le_inv in A. assert (L := IZR_le (- 2 ^ (n - 1)) (z - 1) ltac:(lia)). assert (U := IZR_le (z + 1) (2 ^ (n - 1) - 1) ltac:(lia)). rewrite minus_IZR in L. rewrite plus_IZR in U. lra.
Qed.
Lemma bds_values_fit c adj m : consts_exact c -> wf_bds m -> 6 <= e_sat m -> inner_angles m -> inner 10 (e_tgd0 m) -> inner 10 (e_tgd1 m) -> 0 < e_toe m -> 8 * e_toe m + 14 < 604800 -> 0 < e_toc m -> 8 * e_toc m + 14 < 604800 ->
  (forall w, e_wn m + 1356 <= w -> adj w = w) -> bds_representable (bds_eph_to_sbp c adj m).
Proof.
  intros C W SA I I0 I1 T1 T1' T2 T2' A. destruct (C58_bds_values c adj m C W A) as (VO & (V0 & V1 & V2) & VT & VT' & S1 & _ & S3 & S4 & S5 & _ & S7 & S8 & S9 & S10).
  set (s := bds_eph_to_sbp c adj m) in *. clearbody s.
  destruct W as (B1 & B2 & B3 & B4 & B5 & B6 & B7 & B8 & B9 & B10 & B11 & B12 & B13 & B14 & B15 & B16 & B17 & B18 & B19 & B20 & B21 & B22 & B23 & B24 & B25 & B26 & B27 & B28 & B29 & B30 & B31).
  unfold bds_representable. split; [apply (orbit_values_fit 18 6 31 m s VO); [unfold orbit_bits; tauto|exact I]|].
  split; [split; [eapply fit_d; eassumption|split; [eapply fit_d; eassumption|eapply fit_f; eassumption]]|]. split; [eapply fit_ns; [eassumption|lia|assumption]|]. split; [eapply fit_ns; [eassumption|lia|assumption]|].
  rewrite S1, S3, S4, S5. clear - B1 B2 B5 B10 B28 SA T1 T1' T2 T2' S7 S8 S9 S10. unfold ubits in *. cbn in B1, B2, B5, B10, B28.
  assert (s_toe s = 8 * e_toe m + 14) by lia. assert (s_toc s = 8 * e_toc m + 14) by lia. assert (s_toe_wn s = e_wn m + 1356) by lia. assert (s_toc_wn s = e_wn m + 1356) by lia.
  split; [lia|]. split; [lia|]. split; [lia|]. split; [lia|]. split; [lia|]. split; [lia|]. split; [lia|]. split; [lia|]. split; lia.
Qed.
Lemma fit_fm n k z x : fexact x (scaled z k) -> smag n z -> fmfit n (unit2 k) x.
Proof.
  intros [F V] B. split; [exact F|]. unfold mfit, fv. rewrite V. unfold scaled. fold (unit2 k). assert (P : (0 < unit2 k)%R) by apply bpow_gt_0.
  replace (IZR z * unit2 k / unit2 k)%R with (IZR z) by (field; lra). unfold smag in B. split; apply IZR_le; lia.
Qed.
Lemma fit_fk n k z x : fexact x (scaled (z * 1000) k) -> smag n z -> fmfit n (kilo k) x.
Proof.
  intros [F V] B. split; [exact F|]. unfold mfit, fv. rewrite V. unfold scaled, kilo. rewrite mult_IZR. fold (unit2 k). assert (P : (0 < unit2 k)%R) by apply bpow_gt_0.
  replace (IZR z * 1000 * unit2 k / (unit2 k * 1000))%R with (IZR z) by (field; lra). unfold smag in B. split; apply IZR_le; lia.
Qed.
Lemma fit_dk n k z x : dexact x (scaled (z * 1000) k) -> smag n z -> dmfit n (kilo k) x.
Proof.
  intros [F V] B. split; [exact F|]. unfold mfit, dv. rewrite V. unfold scaled, kilo. rewrite mult_IZR. fold (unit2 k). assert (P : (0 < unit2 k)%R) by apply bpow_gt_0.
  replace (IZR z * 1000 * unit2 k / (unit2 k * 1000))%R with (IZR z) by (field; lra). unfold smag in B. split; apply IZR_le; lia.
Qed.
Lemma glo_values_fit c m rover leap s : consts_exact c -> wf_glo m -> known_time rover -> inner_week rover -> 0 <= leap <= 3600 -> 1 <= g_t_b m <= 95 ->
  glo_eph_to_sbp c m rover (Some leap) = Some s -> glo_representable leap s.
Proof.
  intros C W KT IW LP T H.
  destruct (C58_glo_values c m rover leap s C W KT IW LP ltac:(lia) H) as (V1 & V2 & V3 & V4 & V5 & V6 & V7 & V8 & V9 & V10 & V11 & V12 & V13 & V14 & V15 & V16 & V17 & V18 & V19 & V20).
  destruct W as (B1 & B2 & B3 & B4 & B5 & B6 & B7 & B8 & B9 & B10 & B11 & B12 & B13 & B14 & B15 & B16 & B17 & B18).
  unfold glo_representable. split; [eapply fit_fm; eassumption|]. split; [eapply fit_fm; eassumption|]. split; [eapply fit_fm; eassumption|].
  split; [eapply fit_dk; eassumption|]. split; [eapply fit_dk; eassumption|]. split; [eapply fit_dk; eassumption|]. split; [eapply fit_dk; eassumption|]. split; [eapply fit_dk; eassumption|]. split; [eapply fit_dk; eassumption|].
  split; [eapply fit_fk; eassumption|]. split; [eapply fit_fk; eassumption|]. split; [eapply fit_fk; eassumption|].
  rewrite V13, V16, V17. clear - B1 B2 B4 V14 V18 V19 T. unfold ubits in *. cbn in B1, B2, B4. split; [lia|]. split; [lia|]. split; [lia|]. split; [lia|].
  unfold glo_instant in V19. apply Z.mod_divide in V19; [|lia]. destruct V19 as [q V19].
  assert (X : sg_toe s + 10800 - leap = g_t_b m * 900 + (q - 7 * sg_toe_wn s) * 86400) by lia. rewrite X. split.
  - replace (g_t_b m * 900 + (q - 7 * sg_toe_wn s) * 86400) with ((g_t_b m + (q - 7 * sg_toe_wn s) * 96) * 900) by ring. apply Z.mod_mul. lia.
  - rewrite Z.mod_add, Z.mod_small by lia. lia.
Qed.
