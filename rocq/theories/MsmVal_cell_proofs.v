(** C65: one cell of an MSM4/MSM5 message, from the SBP observation to the received one *)
From Coq Require Import Reals Lra.
From Flocq Require Import Core.
From Verif Require Import Base Bits_model Bits_proofs RtcmMsm_model Signals_model Double_model Double_proofs SbpEph_spec Exact_proofs Sbp2Rtcm_model Sbp2Msm_model Sbp2Msm_spec MsmVal_model MsmVal_spec MsmVal_proofs MsmVal_wire_proofs.
Import ListNotations.
Open Scope Z_scope.

Lemma signed_wrap15 F : Z.abs F <= 2 ^ 14 -> to_signed 15 F = wrap 14 F.
Proof. intros H. unfold to_signed, wrap. change (2 ^ (15 - 1)) with (2 ^ 14). change (2 ^ 15) with 32768. change (2 ^ 14) with 16384 in *. destruct (Z.eqb_spec F 16384); [subst; reflexivity|]. cbv zeta. destruct (Z.ltb_spec (F mod 32768) 16384); lia. Qed.
Lemma signed_wrap22 F : Z.abs F <= 2 ^ 21 -> to_signed 22 F = wrap 21 F.
Proof. intros H. unfold to_signed, wrap. change (2 ^ (22 - 1)) with (2 ^ 21). change (2 ^ 22) with 4194304. change (2 ^ 21) with 2097152 in *. destruct (Z.eqb_spec F 2097152); [subst; reflexivity|]. cbv zeta. destruct (Z.ltb_spec (F mod 4194304) 2097152); lia. Qed.
Lemma signed14 r : Z.abs r <= 8178 -> to_signed 14 r = r.
Proof. intros H. unfold to_signed. change (2 ^ (14 - 1)) with 8192. change (2 ^ 14) with 16384. cbv zeta. destruct (Z.ltb_spec (r mod 16384) 8192); lia. Qed.
Lemma has_all : forallb (fun f => Bool.eqb (has f F_CODE) (Z.testbit f 0) && Bool.eqb (has f F_PHASE) (Z.testbit f 1) && Bool.eqb (has f F_HALF) (Z.testbit f 2) &&
  Bool.eqb (has f F_DOPPLER) (Z.testbit f 3)) (map Z.of_nat (seq 0 256)) = true.
Proof. vm_compute. reflexivity. Qed.
Lemma has_flag o : byte (o_flags o) -> has (o_flags o) F_CODE = flag o 0 /\ has (o_flags o) F_PHASE = flag o 1 /\ has (o_flags o) F_HALF = flag o 2 /\ has (o_flags o) F_DOPPLER = flag o 3.
Proof.
  intros B. unfold flag. pose proof has_all as H. rewrite forallb_forall in H. specialize (H (o_flags o)).
  assert (I : In (o_flags o) (map Z.of_nat (seq 0 256))). { apply in_map_iff. exists (Z.to_nat (o_flags o)). unfold byte in B. split; [lia|]. apply in_seq. lia. }
  specialize (H I). rewrite !andb_true_iff in H. destruct H as [[[A1 A2] A3] A4]. apply eqb_prop in A1, A2, A3, A4. auto.
Qed.
Lemma rx_rough ty z info r : (ty = 4 \/ ty = 5) -> 0 <= z <= 260096 -> Z.abs r <= 8178 ->
  exists i', rx_sat (ty =? 5) (mkrsat (z / 1024) info (z mod 1024) r) = mkrsat (z / 1024) i' (z mod 1024) (if ty =? 5 then r else MSM_ROUGH_RATE_INVALID) /\
    i' = (if ty =? 5 then info mod 16 else 0).
Proof.
  intros T Z R. eexists. split; [|reflexivity]. unfold rx_sat. cbn [r_int r_info r_mod r_rate]. rewrite signed14 by exact R.
  change (2 ^ 8) with 256. change (2 ^ 10) with 1024. change (2 ^ 4) with 16. rewrite (Z.mod_small (z / 1024) 256) by lia. rewrite Z.mod_mod by lia. reflexivity.
Qed.
Section Cell.
Variable num_of : code -> Z.
Variables (ty : Z) (o : pobs) (k : code) (prn : Z) (z r info f : Z) (sf rf : option dbl).
Hypothesis T : ty = 4 \/ ty = 5.
Hypothesis Ho : obs_in_range o.
Hypothesis Hz : 0 <= z <= 260096.
Hypothesis Hr : Z.abs r <= 8178.
Hypothesis Hf : (1100000000 <= f <= 1700000000)%Z.
Hypothesis Hsf : forall fr, sf = Some fr -> dexact fr (scaled f 0).
Hypothesis Hrf : sf = None \/ rf = None \/ rf = sf.
Let rs : rsat := mkrsat (z / 1024) info (z mod 1024) r.
Let g' (g : rsig) : dsig := sig_value ty (rx_sat (ty =? 5) rs) (rx_sig (ty =? 5) g).
Lemma cell_core : exists g, sig_raw (ty =? 5) rs (obs_sig sf o) = Some g /\
  (dv_pr (g' g) = true -> exists o', cell_obs num_of rf k prn (g' g) = Some o' /\
     o_sat o' = prn /\ o_code o' = num_of k /\ flag o' 0 = true /\ o_P o' = o_P o /\
     (flag o' 1 = true -> flag o 1 = true /\ o_Li o' = o_Li o /\ o_Lf o' = o_Lf o /\ flag o' 2 = flag o 2) /\
     (flag o' 3 = true -> ty = 5 /\ flag o 3 = true /\ o_Di o' = o_Di o /\ o_Df o' = o_Df o) /\
     o_lock o' = o_lock o mod 16 /\ (o_cn0 o < 254 -> Z.abs (o_cn0 o' - o_cn0 o) <= 2 /\ o_cn0 o' mod 4 = 0) /\
     (flag o 1 = true -> sf <> None -> rf <> None -> (Rabs (phase_ms f o - IZR z / 1024) <= 2097151 / 536870912 - / 1000000000000)%R -> flag o' 1 = true) /\
     (ty = 5 -> flag o 3 = true -> sf <> None -> rf <> None -> (Rabs (rate_R f o - IZR r) <= 16382 / 10000)%R -> flag o' 3 = true)) /\
  ((Rabs (ms_of o - IZR z / 1024) <= 16383 / 16777216 - / 1000000000000)%R -> dv_pr (g' g) = true).
Proof.
  pose proof Ho as (_ & _ & _ & _ & _ & Bc & Bl & Bf & F0 & _). destruct (has_flag o Bf) as (H0 & H1 & H2 & H3).
  pose proof (rough_ms_ex info z r Hz) as RX.
  (* pseudorange *)
  destruct (pr_near o Ho) as (PF & PN).
  destruct (P_bounds o Ho) as (_ & PB).
  destruct (fine_spec 24 10 16 true (obs_pr_ms o) (rough_ms rs) z ltac:(left; auto)) as (F1 & E1 & B1 & V1 & N1); [|exact RX|exact Hz|].
  { intros _. split; [exact PF|]. apply Rabs_le. apply Rabs_le_inv in PN. lra. }
  (* carrier phase *)
  set (vc := (match sf with Some _ => true | None => false end) && flag o 1).
  set (fr := match sf with Some f => f | None => d0 end).
  assert (VC : vc = true -> dfin (obs_cp_ms o fr) = true /\ (Rabs (dR (obs_cp_ms o fr) - phase_ms f o) <= / 1000000000000 /\ Rabs (phase_ms f o) <= 1960)%R).
  { unfold vc, fr. destruct sf as [x|]; [|discriminate]. intros _. apply (cp_near f x Hf (Hsf x eq_refl) o Ho). }
  destruct (fine_spec 29 8 32 vc (if vc then obs_cp_ms o fr else d0) (rough_ms rs) z ltac:(right; auto)) as (F2 & E2 & B2 & V2 & N2); [|exact RX|exact Hz|].
  { intros Q. rewrite Q. destruct (VC Q) as (A & B & C). split; [exact A|]. apply Rabs_le. apply Rabs_le_inv in B, C. lra. }
  (* Doppler *)
  set (vd := (match sf with Some _ => true | None => false end) && flag o 3).
  assert (VD : vd = true -> dfin (obs_rate o fr) = true /\ (Rabs (dR (obs_rate o fr) - rate_R f o) <= / 1000000000000 /\ Rabs (rate_R f o) <= 8177)%R).
  { unfold vd, fr. destruct sf as [x|]; [|discriminate]. intros _. apply (rate_near f x Hf (Hsf x eq_refl) o Ho). }
  destruct (rate_fine_spec vd (if vd then obs_rate o fr else d0) r) as (F3 & E3 & B3 & V3 & N3); [|exact Hr|].
  { intros Q. rewrite Q. destruct (VD Q) as (A & B & C). split; [exact A|]. apply Rabs_le. apply Rabs_le_inv in B, C. lra. }
  destruct (cnr_spec (o_cn0 o) Bc) as (cz & EC & BC).
  set (G := mkrsig F1 F2 (o_lock o mod 16) (vc && negb (flag o 2)) cz (if ty =? 5 then F3 else 0)).
  assert (EG : sig_raw (ty =? 5) rs (obs_sig sf o) = Some G).
  { unfold sig_raw, obs_sig. cbv zeta. cbn [dv_pr d_pr dv_cp d_cp dv_cnr d_cnr dv_dop d_rate dv_lock d_lock d_hca]. rewrite H0, F0, H1, H3, H2. fold vc vd fr.
    change MSM_PR_INVALID with (- 2 ^ (24 - 10)). change MSM_CP_INVALID with (- 2 ^ (29 - 8)). change MSM_DOP_INVALID with (-16384). rewrite E1, E2, EC.
    unfold rs at 1. cbn [r_rate]. rewrite E3. rewrite lock_back by (unfold byte in Bl; lia). unfold G. destruct (ty =? 5); reflexivity. }
  exists G. split; [exact EG|].
  destruct (rx_rough ty z info r T Hz Hr) as (i' & ER & _).
  pose proof (rough_ms_ex i' z (if ty =? 5 then r else MSM_ROUGH_RATE_INVALID) Hz) as RX'.
  assert (W1 : r_pr (rx_sig (ty =? 5) G) = wrap 14 F1) by (cbn [rx_sig r_pr G]; apply signed_wrap15; exact B1).
  assert (W2 : r_cp (rx_sig (ty =? 5) G) = wrap 21 F2) by (cbn [rx_sig r_cp G]; apply signed_wrap22; exact B2).
  assert (W3 : r_dop (rx_sig (ty =? 5) G) = if ty =? 5 then wrap 14 F3 else MSM_DOP_INVALID).
  { cbn [rx_sig r_dop G]. destruct (ty =? 5); [apply signed_wrap15; exact B3|reflexivity]. }
  assert (W4 : r_lock (rx_sig (ty =? 5) G) = o_lock o mod 16) by (cbn [rx_sig r_lock G]; change (2 ^ 4) with 16; apply Z.mod_mod; lia).
  assert (W5 : r_cnr (rx_sig (ty =? 5) G) = cz mod 64) by reflexivity.
  assert (W6 : r_hca (rx_sig (ty =? 5) G) = vc && negb (flag o 2)) by reflexivity.
  assert (GV : g' G = mkdsig (d_pr (g' G)) (d_cp (g' G)) (lock_time_d (o_lock o mod 16)) (vc && negb (flag o 2)) (d_cnr (g' G)) (d_rate (g' G)) 
     (negb (wrap 14 F1 =? - 2 ^ 14)) (negb (wrap 21 F2 =? - 2 ^ 21)) (negb (cz mod 64 =? 0)) true ((ty =? 5) && negb (wrap 14 F3 =? - 2 ^ 14))).
  { unfold g', rs. rewrite ER. unfold sig_value. cbv zeta. cbn [r_int r_rate d_pr d_cp d_cnr d_rate]. rewrite W1, W2, W3, W4, W5, W6.
    replace (z / 1024 =? MSM_ROUGH_RANGE_INVALID) with false by (symmetry; apply Z.eqb_neq; unfold MSM_ROUGH_RANGE_INVALID; lia). cbn [negb andb].
    replace ((ty =? 6) || (ty =? 7)) with false by (destruct T as [-> | ->]; reflexivity).
    replace ((ty =? 5) || (ty =? 7)) with (ty =? 5) by (destruct T as [-> | ->]; reflexivity).
    change MSM_PR_INVALID with (- 2 ^ 14). change MSM_CP_INVALID with (- 2 ^ 21). change MSM_DOP_INVALID with (- 2 ^ 14).
    f_equal. destruct T as [-> | ->]; [reflexivity|]. change (5 =? 5) with true. cbn [andb].
    replace (r =? MSM_ROUGH_RATE_INVALID) with false by (symmetry; apply Z.eqb_neq; unfold MSM_ROUGH_RATE_INVALID; lia). reflexivity. }
  assert (GX : d_pr (g' G) = (if negb (wrap 14 F1 =? - 2 ^ 14) then dadd (rough_ms (mkrsat (z / 1024) i' (z mod 1024) (if ty =? 5 then r else MSM_ROUGH_RATE_INVALID))) (dmul (dofZ (wrap 14 F1)) (P2 24)) else d0) /\
     d_cp (g' G) = (if negb (wrap 21 F2 =? - 2 ^ 21) then dadd (rough_ms (mkrsat (z / 1024) i' (z mod 1024) (if ty =? 5 then r else MSM_ROUGH_RATE_INVALID))) (dmul (dofZ (wrap 21 F2)) (P2 29)) else d0) /\
     d_cnr (g' G) = (if negb (cz mod 64 =? 0) then dofZ (cz mod 64) else d0) /\
     (ty = 5 -> wrap 14 F3 <> - 2 ^ 14 -> d_rate (g' G) = dadd (dofZ r) (dmul (dofZ (wrap 14 F3)) d1e_4))).
  { clear GV. unfold g', rs. rewrite ER. unfold sig_value, sat_value. cbv zeta. cbn [r_int r_rate d_pr d_cp d_cnr d_rate ds_range ds_rate]. rewrite W1, W2, W3, W5.
    replace (z / 1024 =? MSM_ROUGH_RANGE_INVALID) with false by (symmetry; apply Z.eqb_neq; unfold MSM_ROUGH_RANGE_INVALID; lia). cbn [negb andb].
    replace ((ty =? 6) || (ty =? 7)) with false by (destruct T as [-> | ->]; reflexivity).
    replace ((ty =? 5) || (ty =? 7)) with (ty =? 5) by (destruct T as [-> | ->]; reflexivity).
    change MSM_PR_INVALID with (- 2 ^ 14). change MSM_CP_INVALID with (- 2 ^ 21). change MSM_DOP_INVALID with (- 2 ^ 14).
    split; [reflexivity|]. split; [reflexivity|]. split; [reflexivity|]. intros -> N. change (5 =? 5) with true. cbn [andb].
    replace (r =? MSM_ROUGH_RATE_INVALID) with false by (symmetry; apply Z.eqb_neq; unfold MSM_ROUGH_RATE_INVALID; lia). cbn [negb andb].
    replace (wrap 14 F3 =? - 2 ^ 14) with false by (symmetry; apply Z.eqb_neq; exact N). reflexivity. }
  destruct GX as (GP & GC & GN & GR).
  assert (WB1 : Z.abs (wrap 14 F1) <= 2 ^ 22) by (unfold wrap; change (2 ^ (24 - 10)) with (2 ^ 14) in B1; destruct (F1 =? 2 ^ 14); lia).
  assert (WB2 : Z.abs (wrap 21 F2) <= 2 ^ 21) by (unfold wrap; change (2 ^ (29 - 8)) with (2 ^ 21) in B2; destruct (F2 =? 2 ^ 21); lia).
  split.
  2:{ intros N. rewrite GV. cbn [dv_pr]. apply Bool.negb_true_iff, Z.eqb_neq. apply (N1 eq_refl). unfold scaled. bpn. change (IZR (2 ^ (24 - 10) - 1)) with 16383%R. apply Rabs_le. apply Rabs_le_inv in N, PN. lra. }
  intros DP. rewrite GV in DP. cbn [dv_pr] in DP. rewrite DP in GP. apply Bool.negb_true_iff, Z.eqb_neq in DP.
  (* the fields *)
  assert (A1 : conv 0 (2 ^ 32 - 1) (drint (dmul (dadd (dadd (ddiv (dmul (d_pr (g' G)) GPS_C) (dofZ 1000)) d0) d0) (dofZ 50))) = Some (o_P o)).
  { destruct V1 as [V1|[_ V1]]; [contradiction|]. rewrite GP. eapply range_back; [exact Ho| |exact V1]. apply fine_value; [lia|exact Hz|exact WB1|exact RX']. }
  set (fv := match rf with Some _ => true | None => false end). set (vc' := negb (wrap 21 F2 =? - 2 ^ 21) && fv). set (vd' := ((ty =? 5) && negb (wrap 14 F3 =? - 2 ^ 14)) && fv).
  assert (A2 : exists li lf, (if vc' then split256 (- 2 ^ 31) (2 ^ 31 - 1) (dadd (ddiv (dmul (d_cp (g' G)) (match rf with Some f => f | None => d0 end)) (dofZ 1000)) d0) else Some (0, 0)) = Some (li, lf) /\
     li <= 2 ^ 31 - 1 /\ (vc' = true -> vc = true /\ li = o_Li o /\ lf = o_Lf o)).
  { destruct vc' eqn:Q; [|exists 0, 0; split; [reflexivity|split; [lia|discriminate]]]. unfold vc' in Q. apply andb_true_iff in Q. destruct Q as [Q1 Q2].
    rewrite Q1 in GC. apply Bool.negb_true_iff, Z.eqb_neq in Q1. destruct V2 as [V2|[VV V2]]; [contradiction|]. rewrite VV in V2.
    exists (o_Li o), (o_Lf o). split; [|split; [destruct Ho as (_ & ? & _); lia|auto]]. rewrite GC.
    assert (RS : rf = sf). { destruct Hrf as [X|[X|X]]; [|unfold fv in Q2; rewrite X in Q2; discriminate Q2|exact X]. unfold vc in VV. rewrite X in VV. discriminate VV. }
    unfold vc in VV. rewrite RS. fold fr. destruct sf as [x|] eqn:SF; [|discriminate VV]. subst fr.
    eapply (phase_back f x Hf (Hsf x eq_refl)); [exact Ho|apply fine_value; [lia|exact Hz|lia|exact RX']| |exact V2].
    unfold scaled. bpn. apply Rabs_le. assert (M : (-2097152 <= IZR (wrap 21 F2) <= 2097152)%R) by (split; [apply (IZR_le (-2097152))|apply (IZR_le _ 2097152)]; lia).
    assert (M2 : (0 <= IZR z <= 260096)%R) by (split; [apply (IZR_le 0)|apply (IZR_le _ 260096)]; lia).
    rewrite plus_IZR, mult_IZR. change (IZR (2 ^ (29 - 10))) with 524288%R. lra. }
  assert (A4 : exists di df, (if vd' then split256 (- 2 ^ 15) (2 ^ 15 - 1) (ddiv (dmul (dopp (d_rate (g' G))) (match rf with Some f => f | None => d0 end)) GPS_C) else Some (0, 0)) = Some (di, df) /\
     (vd' = true -> ty = 5 /\ vd = true /\ di = o_Di o /\ df = o_Df o)).
  { destruct vd' eqn:Q; [|exists 0, 0; split; [reflexivity|discriminate]]. unfold vd' in Q. apply andb_true_iff in Q. destruct Q as [Q1 Q2]. apply andb_true_iff in Q1. destruct Q1 as [T5 Q1].
    apply Z.eqb_eq in T5. apply Bool.negb_true_iff, Z.eqb_neq in Q1. destruct V3 as [V3|(VV & V3 & V4)]; [contradiction|]. rewrite VV in V4.
    exists (o_Di o), (o_Df o). split; [|auto]. rewrite (GR T5 Q1).
    assert (RS : rf = sf). { destruct Hrf as [X|[X|X]]; [|unfold fv in Q2; rewrite X in Q2; discriminate Q2|exact X]. unfold vd in VV. rewrite X in VV. discriminate VV. }
    unfold vd in VV. rewrite RS. fold fr. destruct sf as [x|] eqn:SF; [|discriminate VV]. subst fr.
    apply (rate_back f x o _ Hf (Hsf x eq_refl) Ho V3 V4). }
  assert (A3 : exists cn, (if negb (cz mod 64 =? 0) then conv 0 255 (drint (dmul (d_cnr (g' G)) (dofZ 4))) else Some 0) = Some cn /\ (o_cn0 o < 254 -> Z.abs (cn - o_cn0 o) <= 2 /\ cn mod 4 = 0)).
  { exists (4 * (cz mod 64)). split.
    - rewrite GN. destruct (Z.eqb_spec (cz mod 64) 0) as [Q|Q]; cbn [negb]; [rewrite Q; reflexivity|]. apply cnr_back. lia.
    - intros L. assert (cz <> 64) by lia. rewrite Z.mod_small by lia. split; [lia|]. rewrite Z.mul_comm. apply Z.mod_mul. lia. }
  destruct A2 as (li & lf & A2 & LI & V2'). destruct A4 as (di & df & A4 & V4'). destruct A3 as (cn & A3 & V3').
  set (o' := mkpobs (o_P o) li lf (to_signed 16 di) df cn (o_lock o mod 16)
        (F_CODE + (if vc' then F_PHASE + (if vc && negb (flag o 2) then 0 else F_HALF) else 0) + (if vd' then F_DOPPLER else 0)) prn (num_of k)).
  assert (EO : cell_obs num_of rf k prn (g' G) = Some o').
  { unfold cell_obs, cell_obs_b. fold fv. rewrite A1. rewrite GV. cbn [dv_cp dv_cnr dv_dop dv_lock d_lock d_hca d_cp d_cnr d_rate].
    fold vc' vd'. rewrite A2, A3, A4. rewrite (proj2 (Z.ltb_ge _ _) LI). rewrite lock_back by (apply Z.mod_pos_bound; lia). rewrite Z.mod_mod by lia. reflexivity. }
  exists o'. split; [exact EO|]. cbn [o_sat o_code o_P o_lock o_cn0 o']. split; [reflexivity|]. split; [reflexivity|].
  assert (FL : flag o' 0 = true /\ flag o' 1 = vc' /\ flag o' 2 = (vc' && negb (vc && negb (flag o 2))) /\ flag o' 3 = vd').
  { unfold flag at 1 2 3 5. cbn [o_flags o']. destruct vc', vd', (vc && negb (flag o 2)); repeat split. }
  destruct FL as (FL0 & FL1 & FL2 & FL3). split; [exact FL0|]. split; [reflexivity|]. split; [|split; [|split; [reflexivity|split; [exact V3'|split]]]].
  - rewrite FL1. intros Q. destruct (V2' Q) as (Q1 & Q2 & Q3). rewrite FL2, Q, Q1. cbn [o_Li o_Lf o' andb negb]. split; [unfold vc in Q1; apply andb_true_iff in Q1; apply Q1|].
    split; [exact Q2|]. split; [exact Q3|]. apply negb_involutive.
  - rewrite FL3. intros Q. destruct (V4' Q) as (Q0 & Q1 & Q2 & Q3). cbn [o_Di o_Df o']. split; [exact Q0|]. split; [unfold vd in Q1; apply andb_true_iff in Q1; apply Q1|].
    split; [|exact Q3]. rewrite Q2. destruct Ho as (_ & _ & _ & D & _). unfold to_signed. change (2 ^ (16 - 1)) with 32768. change (2 ^ 16) with 65536. change (2 ^ 15) with 32768 in D. cbv zeta. clear - D. destruct (Z.ltb_spec (o_Di o mod 65536) 32768); lia.
  - intros P1 S1 R1 NP. rewrite FL1. unfold vc', fv. destruct rf as [x|]; [|contradiction]. rewrite andb_true_r. apply Bool.negb_true_iff, Z.eqb_neq.
    assert (VV : vc = true) by (unfold vc; destruct sf; [exact P1|contradiction]). apply (N2 VV). rewrite VV. destruct (VC VV) as (_ & C & _). unfold scaled. bpn. change (IZR (2 ^ (29 - 8) - 1)) with 2097151%R. apply Rabs_le. apply Rabs_le_inv in NP, C. lra.
  - intros T5 P1 S1 R1 NP. rewrite FL3. unfold vd', fv. destruct rf as [x|]; [|contradiction]. rewrite andb_true_r, T5. change (5 =? 5) with true. cbn [andb]. apply Bool.negb_true_iff, Z.eqb_neq.
    assert (VV : vd = true) by (unfold vd; destruct sf; [exact P1|contradiction]). apply (N3 VV). rewrite VV. destruct (VD VV) as (_ & C & _). apply Rabs_le. apply Rabs_le_inv in NP, C. lra.
Qed.
End Cell.
