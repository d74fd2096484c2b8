(** C80: proofs *)
From Coq Require Import Reals Lra.
From Flocq Require Import Core IEEE754.Binary.
From Verif Require Import Base Bitstring Bits_model Bits_proofs Bitstream_model Bitstream_proofs RtcmStation_spec RtcmStation_proofs RtcmLegacy_model RtcmLegacy_proofs RtcmMsm_model Signals_model Double_model Double_proofs Esf_model Esf_proofs NmeaFields_proofs
  Exact_proofs Sbp2Rtcm_model MsmVal_model MsmVal_spec MsmVal_proofs Abs_proofs LegVal_model LegVal_spec LegVal_proofs LegVal_sat_proofs MsmRx_num_proofs Options_model MsmRx_spec Ssr_proofs LegRx_model LegRx_spec.
Open Scope R_scope.

(** *** numbers *)
Lemma range_leg x v sb vs : ab x v (3 / 10000000) -> -400 <= v <= 77500000 -> ab sb vs 0 -> Rabs vs <= 1000000 -> 0 <= v + vs ->
  exists P, conv 0 (2 ^ 32 - 1) (drint (dmul (dadd x sb) (dofZ 50))) = Some P /\ (0 <= P < 2 ^ 32)%Z /\ Rabs (IZR P / 50 - (v + vs)) <= / 100 + / 1000000.
Proof.
  intros X V S VS POS. apply Rabs_le_inv in VS. assert (Z3 := ab_Z 50 ltac:(lia)).
  assert (M1 : ab (dadd x sb) (v + vs) (4 / 10000000)) by (apply (ab_add 27 78500000 _ _ _ _ _ _ _ X S); [lia|apply Rabs_le; lra|bpn; lra|bpn; lra]).
  assert (M2 : ab (dmul (dadd x sb) (dofZ 50)) ((v + vs) * 50) (/ 40000)) by (apply (ab_mul 32 78500000 50 _ _ _ _ _ _ _ M1 Z3); [lia|apply Rabs_le; lra|apply Rabs_le; lra|bpn; lra|bpn; lra]).
  destruct (ab_rint _ _ _ M2) as (P & -> & B). apply Rabs_le_inv in B.
  assert (PR : (0 <= P < 2 ^ 32)%Z).
  { split; [apply (Zle_half _ _ (3/4)); [|lra]; cbn; lra|]. enough (P <= 3925000001)%Z by lia. apply (Zle_half _ _ (3/4)); [|lra]. lra. }
  exists P. split; [apply conv_in; lia|]. split; [exact PR|]. apply Rabs_le. lra.
Qed.
Lemma lock_leg i : (0 <= i < 128)%Z -> lock_fits (1000 * lock_seconds i) (encode_lock_d (dofZ (from_lock_ind i))) = true.
Proof.
  intros H. assert (X : forallb (fun i => lock_fits (1000 * lock_seconds i) (encode_lock_d (dofZ (from_lock_ind i)))) (map Z.of_nat (seq 0 128)) = true) by (vm_cast_no_check (eq_refl true)).
  rewrite forallb_forall in X. apply X, in_map_iff. exists (Z.to_nat i). split; [lia|apply in_seq; lia].
Qed.

(** *** one signal *)
Definition raw_of (s : sys) (dual : bool) (x : lsat) : lraw :=
  let d v := if dual then v else 0%Z in
  mklraw (f_sv x) (if glo s then f_fcn x else 0%Z) (f_pr x) (f_ph1 x) (f_lock1 x) (f_amb x) (f_cn1 x) (d (f_dpr x)) (d (f_ph2 x)) (d (f_lock2 x)) (d (f_cn2 x)).
Section Sig.
Variables (num_of : Signals_model.code -> Z) (op : opts) (OP : opts_ok op).
Let bias := fun k => dofflt (op_signal op k).
Let vb := b_signal (real_biases op).
Variables (s : sys) (x : lsat).
Hypothesis OK : sat_ok s x.
Lemma amb_in : (0 <= f_amb x <= 255)%Z /\ (0 <= f_pr x < 2 ^ 25)%Z.
Proof. destruct OK as (_ & _ & _ & A & _ & _ & B & _). unfold ubits in *. destruct s; cbn [glo] in *; lia. Qed.
Lemma l1_value n : value_m s (f_pr x + n) (f_amb x) = l1_metres s x + IZR n / 50.
Proof. unfold value_m, l1_metres, C_M_S. rewrite plus_IZR, !mult_IZR, plus_IZR. destruct s; cbn [unit20 glo]; field. Qed.
Lemma l1_range : 0 <= l1_metres s x <= 77400000.
Proof.
  destruct OK as (_ & _ & _ & A & _ & _ & B & _). unfold ubits in *. unfold l1_metres, C_M_S.
  assert (P0 : 0 <= IZR (f_pr x) /\ 0 <= IZR (f_amb x)) by (split; apply (IZR_le 0); lia).
  destruct s; cbn [glo] in *; [assert (IZR (f_pr x) <= 16777216 /\ IZR (f_amb x) <= 255) by (split; apply IZR_le; lia)|assert (IZR (f_pr x) <= 33554432 /\ IZR (f_amb x) <= 127) by (split; apply IZR_le; lia)]; lra.
Qed.
Lemma fcn_in : channel_known s x -> (s = GLO -> 0 <= (if glo s then f_fcn x else 0) <= 20)%Z.
Proof. intros K E. specialize (K E). subst s. cbn [glo]. destruct OK as (_ & _ & F & _). unfold ubits in F. lia. Qed.
Lemma hz_real (second : bool) : IZR (LegVal_spec.hz s second (if glo s then f_fcn x else 0%Z)) = hertz_of s second x.
Proof. destruct s, second; cbn [LegVal_spec.hz glo hertz_of]; rewrite ?plus_IZR, ?mult_IZR; reflexivity. Qed.
Lemma signal_sid (second : bool) : sbp_sid s second (f_sv x) (if second then f_code2 x else f_code1 x) = signal_of s second x.
Proof.
  unfold sbp_sid, signal_of. destruct s; [|reflexivity]. destruct ((1 <=? f_sv x) && (f_sv x <=? 32))%Z; [destruct second; reflexivity|].
  destruct ((40 <=? f_sv x) && (f_sv x <=? 58))%Z; destruct second; reflexivity.
Qed.
Lemma signal_says (second : bool) (cn lk ph : Z) p : cn = (if second then f_cn2 x else f_cn1 x) -> lk = (if second then f_lock2 x else f_lock1 x) -> ph = (if second then f_ph2 x else f_ph1 x) ->
  ab p (metres_of s second x) (3 / 10000000) -> -400 <= metres_of s second x <= 77500000 -> holdable vb s second x ->
  range_sent second x -> phase_sent second x -> channel_known s x ->
  exists r, freq_to_sbp_b num_of bias s second (f_sv x) (if second then f_code2 x else f_code1 x)
      (mkdfreq p (rx_cycles (freq_d s second (if glo s then f_fcn x else 0%Z)) (rx_m s (f_pr x) (f_amb x)) ph) (cnr_value cn) (dofZ (from_lock_ind lk)) true true (negb (cn =? 0)%Z) true) = Some (opt_list r) /\
    LegRx_spec.leg_outcome vb num_of s second x r.
Proof.
  intros Ecn Elk Eph AP MR HO RS PS CK. unfold freq_to_sbp_b. cbn [qv_pr qv_cp q_pr q_cp q_cnr qv_cnr q_lock qv_lock andb]. rewrite signal_sid.
  destruct (signal_of s second x) as [[sat k]|] eqn:ES. 2:{ exists None. split; [reflexivity|]. left. exact ES. }
  destruct OP as (O1 & _ & _ & O4 & _). pose proof (float_ab _ (O1 k)) as SB. fold (bias k) in SB. change (fR (op_signal op k)) with (vb k) in SB.
  destruct (range_leg _ _ _ _ AP MR SB (O4 k) (HO _ _ ES RS PS)) as (P & -> & PR & PB).
  destruct amb_in as [A1 A2]. pose proof l1_range as LR. pose proof (fcn_in CK) as FI.
  destruct (freq_exact_leg s second _ FI) as [HF HZ].
  assert (V0 : value_m s (f_pr x) (f_amb x) = l1_metres s x) by (rewrite <- (Z.add_0_r (f_pr x)) at 1; rewrite l1_value; lra).
  assert (RX : ab (rx_m s (f_pr x) (f_amb x)) (l1_metres s x) (3 / 10000000)) by (rewrite <- V0; apply (ab_weaken _ _ _ _ (rx_ab s _ _ A1 A2)); lra).
  assert (PH : (-524288 <= ph < 524288)%Z) by (destruct OK as (_ & _ & _ & _ & S1 & _ & _ & _ & _ & _ & S2 & _); clear - S1 S2 Eph; unfold sbits in S1, S2; change (2 ^ (20 - 1))%Z with 524288%Z in S1, S2; subst ph; destruct second; lia).
  pose proof (cycles_ab _ _ HZ HF _ _ ph RX ltac:(lra) ltac:(lia)) as CY.
  assert (CE : (l1_metres s x + IZR ph / 2000) / lam (LegVal_spec.hz s second (if glo s then f_fcn x else 0%Z)) = cycles_of s second x).
  { unfold lam, cycles_of, C_M_S. rewrite hz_real, Eph. pose proof (f_range _ HZ) as FR. rewrite hz_real in FR. field. lra. }
  rewrite CE in CY.
  assert (CB : -10000 <= cycles_of s second x <= 440000000).
  { rewrite <- CE. pose proof (lam_range _ HZ) as LM. pose proof (lam_inv _ HZ) as LI. assert (PB2 : -524288 <= IZR ph <= 524288) by (split; apply IZR_le; lia).
    set (L := lam _) in *. assert (0 < / L) by (apply Rinv_0_lt_compat; lra). unfold Rdiv at 1 3. split; nra. }
  destruct (split_num (- 2 ^ 31) (2 ^ 31 - 1) _ _ _ CY) as (i & j & -> & B1 & B2 & B3); [lia| | |].
  { change (IZR (- 2 ^ 31)) with (-2147483648). lra. }
  { change (IZR (2 ^ 31 - 1)) with 2147483647. lra. }
  apply Rabs_le_inv in B3. assert (JB : 0 <= IZR j) by (apply (IZR_le 0); lia).
  assert (IB : (i <= 1000000000)%Z) by (apply (Zle_half _ _ (3/4)); lra).
  assert (CNB : byte cn) by (destruct OK as (_ & _ & _ & _ & _ & _ & _ & C1 & _ & _ & _ & _ & C2); unfold ubits, byte in *; subst cn; destruct second; lia).
  assert (LKB : (0 <= lk < 128)%Z) by (destruct OK as (_ & _ & _ & _ & _ & C1 & _ & _ & _ & _ & _ & C2 & _); unfold ubits in *; subst lk; destruct second; lia).
  assert (CN : (if negb (cn =? 0)%Z then conv 0 255 (drint (dmul (cnr_value cn) (dofZ 4))) else Some 0%Z) = Some cn).
  { destruct (Z.eqb_spec cn 0) as [-> |]; [reflexivity|]. cbn [negb]. apply cnr_in. exact CNB. }
  rewrite CN. destruct (Z.ltb_spec (2 ^ 31 - 1) i); [lia|].
  eexists (Some _). split; [reflexivity|]. exists sat, k. split; [exact ES|]. split; [exact RS|]. split; [exact PS|]. split; [exact CK|].
  unfold leg_says. cbn [o_sat o_code o_P o_Li o_Lf o_Di o_Df o_cn0 o_lock o_flags]. rewrite <- Ecn, <- Elk.
  split; [reflexivity|]. split; [reflexivity|]. split; [reflexivity|]. split; [reflexivity|]. split; [reflexivity|]. split; [exact PR|]. split; [exact PB|].
  split; [lia|]. split; [exact B2|]. split; [apply Rabs_le; lra|]. split; [reflexivity|]. cbv zeta. apply lock_fits_spec, lock_leg, LKB.
Qed.
Lemma first_signal c : holdable vb s false x -> f_pr x <> 0x80000%Z -> c = f_code1 x ->
  forall w2, let w := mklraw (f_sv x) (if glo s then f_fcn x else 0%Z) (f_pr x) (f_ph1 x) (f_lock1 x) (f_amb x) (f_cn1 x) (w_dpr w2) (w_ph2 w2) (w_lock2 w2) (w_cn2 w2) in
  forall c2, exists r, freq_to_sbp_b num_of bias s false (f_sv x) c (x_l1 (sat_value s (w, c, c2))) = Some (opt_list r) /\ LegRx_spec.leg_outcome vb num_of s false x r.
Proof.
  intros HO PN -> w2 w c2. unfold sat_value. cbn [x_l1]. unfold w. cbn [w_sv w_fcn w_pr w_ph1 w_lock1 w_amb w_cn1]. cbv zeta.
  destruct amb_in as [A1 A2]. replace (f_pr x =? CP_INVALID)%Z with false by (symmetry; apply Z.eqb_neq; unfold CP_INVALID; lia).
  set (v := (match s with GPS => true | GLO => _ end && _)%bool).
  destruct v eqn:EV.
  - assert (CK : channel_known s x /\ phase_sent false x).
    { unfold v in EV. apply andb_true_iff in EV. destruct EV as [E1 E2]. apply negb_true_iff, Z.eqb_neq in E2. split; [|exact E2]. intros E. subst s. cbn [glo] in E1. apply Z.leb_le in E1. exact E1. }
    assert (M : metres_of s false x = l1_metres s x) by (unfold metres_of; lra).
    apply (signal_says false (f_cn1 x) (f_lock1 x) (f_ph1 x)); try reflexivity; try tauto.
    + rewrite M. rewrite <- (Rplus_0_r (l1_metres s x)). replace (l1_metres s x + 0) with (value_m s (f_pr x + 0) (f_amb x)) by (rewrite l1_value; lra). rewrite Z.add_0_r.
      apply (ab_weaken _ _ _ _ (rx_ab s _ _ A1 A2)); lra.
    + rewrite M. pose proof l1_range. lra.
    + split; [exact PN|]. intros E. discriminate E.
  - exists None. unfold freq_to_sbp_b. cbn [qv_pr qv_cp andb negb]. split; [reflexivity|]. right. right. unfold v in EV. apply andb_false_iff in EV. destruct EV as [E|E].
    + right. intros K. destruct s; [discriminate E|]. cbn [glo] in E. specialize (K eq_refl). apply Z.leb_gt in E. unfold MT1012_GLO_MAX_FCN in E. lia.
    + left. intros K. apply negb_false_iff, Z.eqb_eq in E. apply K. exact E.
Qed.
Lemma second_signal : holdable vb s true x -> regular s true x ->
  exists r, freq_to_sbp_b num_of bias s true (f_sv x) (f_code2 x) (x_l2 (sat_value s (raw_of s true x, f_code1 x, f_code2 x))) = Some (opt_list r) /\ LegRx_spec.leg_outcome vb num_of s true x r.
Proof.
  intros HO [PN RG]. specialize (RG eq_refl). unfold sat_value, raw_of. cbn [x_l2 w_sv w_fcn w_pr w_ph1 w_lock1 w_amb w_cn1 w_dpr w_ph2 w_lock2 w_cn2]. cbv zeta.
  destruct (Z.eqb_spec (f_dpr x) PR_L2_INVALID) as [E|ND].
  { exists None. unfold freq_to_sbp_b. cbn [qv_pr qv_cp andb negb]. split; [reflexivity|]. right. left. intros [_ R]. apply (R eq_refl). exact E. }
  destruct (Z.eqb_spec (f_ph2 x) CP_INVALID) as [E|NP].
  { exists None. unfold freq_to_sbp_b. cbn [qv_pr qv_cp andb negb]. split; [reflexivity|]. right. right. left. intros R. apply R. exact E. }
  cbn [negb]. destruct RG as [CK|[E|[E|E]]]; [|contradiction (ND E)|contradiction (NP E)|].
  2:{ exists None. unfold freq_to_sbp_b. cbn [qv_pr qv_cp andb]. pose proof (signal_sid true) as SS. cbn in SS. rewrite SS, E. split; [reflexivity|]. left. exact E. }
  destruct amb_in as [A1 A2].
  assert (DB : (-8191 <= f_dpr x <= 8191)%Z) by (destruct OK as (_ & _ & _ & _ & _ & _ & _ & _ & _ & S & _); unfold sbits in S; cbn in S; unfold PR_L2_INVALID in ND; lia).
  assert (M : metres_of s true x = value_m s (f_pr x + f_dpr x) (f_amb x)) by (rewrite l1_value; reflexivity).
  apply (signal_says true (f_cn2 x) (f_lock2 x) (f_ph2 x)); try reflexivity; try assumption.
  - rewrite M. apply (rx2_ab s _ _ _ A1 A2 DB).
  - rewrite M, l1_value. pose proof l1_range. assert (-8191 <= IZR (f_dpr x) <= 8191) by (split; apply IZR_le; lia). lra.
  - split; [exact PN|]. intros _. exact ND.
Qed.
End Sig.

(** *** one satellite from the bits *)
Local Open Scope Z_scope.
Section Msg.
Variables (num_of : code -> Z) (op : opts) (OP : opts_ok op) (s : sys) (dual : bool).
Let bias := fun k => dofflt (op_signal op k).
Let vb := b_signal (real_biases op).
Definition get_sat_any : dec rxsat := if dual then (w <- get_raw s ;; ret (sat_value s w)) else (w <- get_raw1 s ;; ret (sat_value1 s w)).
Definition value_of (x : lsat) : rxsat :=
  if dual then sat_value s (raw_of s true x, f_code1 x, f_code2 x) else sat_value1 s (raw_of s false x, f_code1 x).
Lemma sat_bits x fs r : sat_ok s x -> get_sat_any (fields_bits (sat_layout s dual x ++ fs) ++ r) = DOk (value_of x) (fields_bits fs ++ r).
Proof.
  intros (R1 & R2 & R3 & R4 & R5 & R6 & R7 & R8 & R9 & R10 & R11 & R12 & R13). unfold ubits in *. unfold get_sat_any, value_of, sat_layout, raw_of.
  destruct dual, s; cbn [glo app] in *; unfold get_raw, get_raw1; cbn [amb_width].
  - erewrite bind_ok; [reflexivity|]. rewrite bind_u by lia. rewrite bind_u by lia. cbv beta. rewrite bind_ret. rewrite bind_u by lia. rewrite bind_s by (lia || assumption). rewrite bind_u by lia. rewrite bind_u by lia. rewrite bind_u by lia.
    rewrite bind_u by lia. rewrite bind_s by (lia || assumption). rewrite bind_s by (lia || assumption). rewrite bind_u by lia. rewrite bind_u by lia. reflexivity.
  - erewrite bind_ok; [reflexivity|]. rewrite bind_u by lia. rewrite bind_u by lia. rewrite bind_u by lia. rewrite bind_u by lia. rewrite bind_s by (lia || assumption). rewrite bind_u by lia. rewrite bind_u by lia. rewrite bind_u by lia.
    rewrite bind_u by lia. rewrite bind_s by (lia || assumption). rewrite bind_s by (lia || assumption). rewrite bind_u by lia. rewrite bind_u by lia. reflexivity.
  - erewrite bind_ok; [reflexivity|]. rewrite bind_u by lia. rewrite bind_u by lia. cbv beta. rewrite bind_ret. rewrite bind_u by lia. rewrite bind_s by (lia || assumption). rewrite bind_u by lia. rewrite bind_u by lia. rewrite bind_u by lia. reflexivity.
  - erewrite bind_ok; [reflexivity|]. rewrite bind_u by lia. rewrite bind_u by lia. rewrite bind_u by lia. rewrite bind_u by lia. rewrite bind_s by (lia || assumption). rewrite bind_u by lia. rewrite bind_u by lia. rewrite bind_u by lia. reflexivity.
Qed.
Lemma sat_outcome_ok x : sat_ok s x -> regular s dual x -> holdable vb s false x -> (dual = true -> holdable vb s true x) ->
  exists r, sat_to_sbp_b num_of bias s (value_of x) = Some (opt_list (fst r) ++ opt_list (snd r)) /\ sat_outcome vb num_of s dual x r.
Proof.
  intros OK RG H1 H2. destruct (first_signal num_of op OP s x OK (f_code1 x) H1 (proj1 RG) eq_refl (raw_of s dual x) (if dual then f_code2 x else 0)) as (r1 & E1 & O1).
  unfold sat_to_sbp_b, value_of, sat_outcome. destruct dual.
  - destruct (second_signal num_of op OP s x OK (H2 eq_refl) RG) as (r2 & E2 & O2). exists (r1, r2). cbn [fst snd].
    change (x_sv (sat_value s (raw_of s true x, f_code1 x, f_code2 x))) with (f_sv x). change (x_c1 (sat_value s (raw_of s true x, f_code1 x, f_code2 x))) with (f_code1 x).
    change (x_c2 (sat_value s (raw_of s true x, f_code1 x, f_code2 x))) with (f_code2 x). unfold bias in *. cbv zeta in E1.
    change (mklraw (f_sv x) (if glo s then f_fcn x else 0) (f_pr x) (f_ph1 x) (f_lock1 x) (f_amb x) (f_cn1 x) (w_dpr (raw_of s true x)) (w_ph2 (raw_of s true x)) (w_lock2 (raw_of s true x)) (w_cn2 (raw_of s true x)))
      with (raw_of s true x) in E1. rewrite E1, E2.
    split; [reflexivity|]. split; assumption.
  - exists (r1, None). cbn [fst snd]. unfold sat_value1. cbn [fst snd x_sv x_c1 x_c2 x_l1 x_l2].
    change (x_sv (sat_value s (raw_of s false x, f_code1 x, 0))) with (f_sv x). change (x_c1 (sat_value s (raw_of s false x, f_code1 x, 0))) with (f_code1 x).
    unfold bias in *. cbv zeta in E1. change (mklraw (f_sv x) (if glo s then f_fcn x else 0) (f_pr x) (f_ph1 x) (f_lock1 x) (f_amb x) (f_cn1 x) (w_dpr (raw_of s false x)) (w_ph2 (raw_of s false x)) (w_lock2 (raw_of s false x)) (w_cn2 (raw_of s false x)))
      with (raw_of s false x) in E1. rewrite E1. change (freq_to_sbp_b num_of _ s true (f_sv x) 0 no_dfreq) with (Some (@nil pobs)). split; [reflexivity|]. split; [exact O1|reflexivity].
Qed.
Lemma message_sats h l p : carries_leg s dual h l p -> run_dec (if dual then decode_leg s else decode_leg1 s) p = Ok (mkrxmsg h (map value_of l)).
Proof.
  intros ((H1 & H2 & H3 & H4 & H5) & OK & LN & pad & E).
  unfold run_dec. rewrite E. unfold header_layout. cbn [app].
    assert (L : get_list get_sat_any (Z.to_nat (len l)) (fields_bits (flat_map (sat_layout s dual) l ++ []) ++ pad) = DOk (map value_of l) (fields_bits [] ++ pad)).
    { unfold len. rewrite Nat2Z.id. apply (get_list_img get_sat_any value_of (sat_layout s dual) (sat_ok s)); [|exact OK]. intros x fs r. apply sat_bits. }
    rewrite app_nil_r in L. unfold get_sat_any in L. unfold decode_leg, decode_leg1. unfold ubits in *. pose proof (len_nonneg l) as LN0.
    assert (TW : tow_width s = (if glo s then 27 else 30)) by (destruct s; reflexivity). rewrite TW.
    assert (TB : 0 <= h_tow h < 2 ^ (if glo s then 27 else 30)) by (destruct s; cbn [glo] in *; lia).
    assert (TM : (max_tow s <? h_tow h) = false) by (apply Z.ltb_ge; destruct s; cbn [glo max_tow] in *; unfold RTCM_MAX_TOW_MS, RTCM_GLO_MAX_TOW_MS; lia).
    assert (W0 : 0 <= (if glo s then 27 else 30)) by (destruct (glo s); lia). assert (NB : 0 <= number s dual < 2 ^ 12) by (destruct s, dual; cbn; lia).
    destruct dual.
    - rewrite bind_u by (lia || exact NB). rewrite bind_u by lia. rewrite bind_u by (assumption || lia). rewrite bind_u by lia. rewrite bind_u by lia. rewrite bind_u by lia. rewrite bind_u by lia. cbv beta.
      replace (number s true =? k_num (kind_of s)) with true by (destruct s; reflexivity). cbn [negb]. rewrite TM. unfold dbind at 1. rewrite L. cbn. destruct h; reflexivity.
    - rewrite bind_u by (lia || exact NB). rewrite bind_u by lia. rewrite bind_u by (assumption || lia). rewrite bind_u by lia. rewrite bind_u by lia. rewrite bind_u by lia. rewrite bind_u by lia. cbv beta.
      replace (number s false =? k_num (kind1 s)) with true by (destruct s; reflexivity). cbn [negb]. rewrite TM. unfold dbind at 1. rewrite L. cbn. destruct h; reflexivity.
Qed.
Lemma message_leg h l p : carries_leg s dual h l p -> Forall (regular s dual) l -> Forall (fun x => holdable vb s false x /\ (dual = true -> holdable vb s true x)) l ->
  exists rs, leg_obs num_of op (number s dual) p = Some (h, flat_map (fun r => opt_list (fst r) ++ opt_list (snd r)) rs) /\ Forall2 (sat_outcome vb num_of s dual) l rs.
Proof.
  intros C RG HO. pose proof (message_sats h l p C) as D. destruct C as (_ & OK & _).
  assert (S : exists rs, all_some (map (sat_to_sbp_b num_of bias s) (map value_of l)) = Some (map (fun r => opt_list (fst r) ++ opt_list (snd r)) rs) /\ Forall2 (sat_outcome vb num_of s dual) l rs).
  { clear D. induction l as [|x l IH]; [exists []; split; [reflexivity|constructor]|]. inversion OK; subst. inversion RG; subst. inversion HO as [|? ? [? ?]]; subst.
    destruct IH as (rs & E2 & F2); try assumption. destruct (sat_outcome_ok x) as (r & E1 & O1); try assumption. exists (r :: rs). cbn [map all_some]. rewrite E1, E2. split; [reflexivity|]. constructor; assumption. }
  destruct S as (rs & ES & F). exists rs. split; [|exact F]. unfold leg_obs.
  assert (DA : decode_any (number s dual) = Some (s, if dual then decode_leg s else decode_leg1 s)) by (destruct s, dual; reflexivity). rewrite DA, D.
  unfold leg_to_sbp_b. cbn [rx_sats rx_hdr]. fold bias. rewrite ES. rewrite flat_map_concat_map. reflexivity.
Qed.
End Msg.
