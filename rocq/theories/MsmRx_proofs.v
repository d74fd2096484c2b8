(** C78: from the payload of a received MSM4-MSM7 message to the SBP observations *)
From Coq Require Import Reals Lra.
From Flocq Require Import Core IEEE754.Binary IEEE754.Bits.
From Verif Require Import Base Bits_model Bits_proofs Bitstring Bitstream_model Bitstream_proofs RtcmStation_spec RtcmLegacy_model RtcmLegacy_proofs RtcmMsm_model RtcmMsm_spec RtcmMsm_proofs Signals_model Signals_spec Signals_proofs
  Double_model Double_proofs Esf_proofs SbpEph_spec Exact_proofs Sbp2Rtcm_model Sbp2Msm_model Sbp2Msm_spec MsmWire_spec MsmWire_proofs MsmVal_model MsmVal_spec MsmVal_proofs MsmVal_wire_proofs MsmVal_epoch_proofs
  Abs_proofs Options_model MsmRx_spec MsmRx_num_proofs.
Local Open Scope Z_scope.

Definition col_sat (ty : Z) (w : wcols) (s : Z) : rsat :=
  mkrsat (znth 0 s (w_int w)) (if with_rates ty then znth 0 s (w_info w) else 0) (znth 0 s (w_mod w)) (if with_rates ty then znth 0 s (w_rate w) else MSM_ROUGH_RATE_INVALID).
Definition col_sig (ty : Z) (w : wcols) (i : Z) : rsig :=
  mkrsig (znth 0 i (w_pr w)) (znth 0 i (w_cp w)) (znth 0 i (w_lock w)) (znth false i (w_hca w)) (znth 0 i (w_cnr w)) (if with_rates ty then znth 0 i (w_dop w) else MSM_DOP_INVALID).

Lemma dok3 {A B C} (a : A) (b b' : B) (c c' : C) r : b = b' -> c = c' -> DOk (a, b, c) r = DOk (a, b', c') r.
Proof. intros -> ->. reflexivity. Qed.
Section Wire.
Variables (ty : Z) (h : mhdr) (w : wcols).
Hypothesis Hty : 4 <= ty <= 7.
Hypothesis Hh : msm_hdr_ok ty h.
Hypothesis Hw : cols_ok ty (set_count (sat_mask h)) (set_count (cell_mask h)) w.

Lemma raw_wire pad : exists r, decode_raw ty (fields_bits (wire_header h ++ wire_columns ty w) ++ pad) =
  DOk (decoded_hdr h, mapi 0 (fun s (_ : Z) => col_sat ty w s) (w_int w), mapi 0 (fun i (_ : Z) => col_sig ty w i) (w_pr w)) r.
Proof.
  rewrite (wire_header_eq ty h Hh).
  destruct (hdr_counts _ _ Hh) as (A' & B' & C' & D & E & N1 & N2).
  pose proof Hh as Hh'. unfold msm_hdr_ok in Hh'. destruct Hh' as (H1 & H2 & _ & H4 & _ & _ & _ & _ & _ & _ & _ & K1 & K2 & S1 & S2 & L3).
  pose proof (type_num ty _ Hty H1) as NR.
  destruct Hw as ((W1 & W2 & W3 & W4) & (W5 & W6 & W7 & W8 & W9 & W10) & F1 & F2 & F3 & F4 & F5 & F6 & F7 & F8 & F9).
  unfold decode_raw. replace (between 4 ty 7) with true by (unfold between; symmetry; apply andb_true_iff; split; apply Z.leb_le; lia). cbn [negb].
  destruct (hdr_decode ty h Hh (wire_columns ty w) pad) as (fs & -> & HD).
  cbn [app]. rewrite bind_u by (clear - NR; lia). rewrite H1, Z.eqb_refl. cbn [negb].
  replace (cons_eqb (to_constellation (mh_num h)) cINVALID) with false by (destruct (to_constellation (mh_num h)); congruence || reflexivity).
  rewrite (dbind_eq _ _ _ _ _ HD). clear HD.
  assert (NS : num_sats (decoded_hdr h) = num_sats h) by reflexivity. assert (NG : num_sigs (decoded_hdr h) = num_sigs h) by reflexivity.
  assert (NC : num_cells (decoded_hdr h) = num_cells h) by reflexivity. rewrite NS, NG, NC.
  replace ((if cons_eqb (to_constellation (mh_num h)) cGLO then RTCM_GLO_MAX_TOW_MS else RTCM_MAX_TOW_MS) <? mh_tow (decoded_hdr h)) with false.
  2:{ symmetry. apply Z.ltb_ge. unfold decoded_hdr, RTCM_GLO_MAX_TOW_MS, RTCM_MAX_TOW_MS, DAY_MS. cbn [mh_tow]. clear - H4.
      destruct (cons_eqb (to_constellation (mh_num h)) cGLO); lia. }
  replace (64 <? num_sats h * num_sigs h) with false by (symmetry; apply Z.ltb_ge; clear - S2 A' B'; rewrite A', B'; lia).
  replace (32 <? num_sats h) with false by (symmetry; apply Z.ltb_ge; clear - S1 A'; rewrite A'; lia).
  rewrite A', D. unfold wire_columns. change MsmWire_spec.column with col. change flags with flag_fields.
  assert (T : ty = 4 \/ ty = 5 \/ ty = 6 \/ ty = 7) by (clear - Hty; lia).
  unfold pr_bits, cp_bits, lock_bits, cnr_bits, col_sat, col_sig in *.
  destruct T as [T|[T|[T|T]]]; rewrite T in *;
  [change (with_rates 4) with false in *; change (hi_res 4) with false in *
  |change (with_rates 5) with true in *; change (hi_res 5) with false in *
  |change (with_rates 6) with false in *; change (hi_res 6) with true in *
  |change (with_rates 7) with true in *; change (hi_res 7) with true in *];
  cbn [Z.eqb Pos.eqb orb]; cbv iota in *; rewrite <- ?app_assoc; cbn [app]; try rewrite <- (app_nil_r (col 15 (w_dop w)));
  repeat first [rewrite bind_ret|rewrite bind_list_u by (first [apply length_nat; assumption|clear; lia])
               |rewrite bind_list_s by (first [apply length_nat; assumption|clear; lia])|rewrite bind_list_b by (apply length_nat; assumption)];
  rewrite ?map_mod, ?map_signed by (first [assumption|clear; lia]);
  eexists; unfold ret; apply dok3;
  apply (mapi_ext 0); intros i Hi; cbn [Z.add]; rewrite ?znth_repeat by (clear - Hi W1 W5; unfold len in *; lia); reflexivity.
Qed.

Variable carrier : code -> Z.
Variable num_of : code -> Z.
Variable rc : rcfg.
Variable op : opts.
Hypothesis CAR : carriers_ok carrier.
Hypothesis FM : fcn_map_ok (rc_fcns rc).
Hypothesis OP : opts_ok op.
Let c : cons := to_constellation (mh_num h).
Let b : biases := real_biases op.
Let fcns : list Z := rc_fcns rc.

Lemma nth_set_fun mask n p q : len mask <= 64 -> nth_set mask n p -> nth_set mask n q -> p = q.
Proof. intros L A B. apply find_spec in A; [|exact L]. apply find_spec in B; [|exact L]. congruence. Qed.
Lemma z_split a m : 0 <= m < 1024 -> (1024 * a + m) / 1024 = a /\ (1024 * a + m) mod 1024 = m.
Proof. intros M. split; [symmetry; apply (Z.div_unique_pos _ _ _ m); lia|symmetry; apply (Z.mod_unique_pos _ _ a m); lia]. Qed.

(** the fine part of a range *)
Lemma range_exact s k F : 0 <= s < len (w_int w) -> znth 0 s (w_int w) <> 255 -> 10 <= k <= 31 -> Z.abs F <= 2 ^ 24 -> Z.abs F * 2 <= 2 ^ k ->
  dexact (dadd (rough_ms (col_sat ty w s)) (dmul (dofZ F) (P2 k))) (rough_msec w s + IZR F / IZR (2 ^ k))%R /\ (-1 <= rough_msec w s + IZR F / IZR (2 ^ k) <= 256)%R.
Proof.
  intros S N K HF HF2. destruct Hw as ((W1 & W2 & W3 & W4) & _ & F1 & F2 & F3 & _).
  assert (A1 : ubits 8 (znth 0 s (w_int w))) by (apply Forall_znth; assumption). assert (A2 : ubits 10 (znth 0 s (w_mod w))) by (apply Forall_znth; [assumption|lia]). unfold ubits in A1, A2.
  set (a := znth 0 s (w_int w)) in *. set (m := znth 0 s (w_mod w)) in *.
  destruct (z_split a m) as [D M]; [lia|]. set (z := 1024 * a + m) in *.
  assert (ZB : 0 <= z <= 261120) by (clear - A1 A2 N; unfold z; lia).
  assert (RM : rough_ms (col_sat ty w s) = rough_ms (mkrsat (z / 1024) 0 (z mod 1024) 0)) by (unfold rough_ms, col_sat; cbn [r_int r_mod]; fold a m; rewrite D, M; reflexivity).
  assert (RR : (rough_msec w s = IZR z / 1024)%R) by (unfold rough_msec; fold a m; unfold z; rewrite plus_IZR, mult_IZR; change (IZR 1024) with 1024%R; field).
  rewrite RM, RR. rewrite <- scaled_real by lia. split; [apply fine_any; [exact K|exact ZB|exact HF|apply rough_any; exact ZB]|]. rewrite scaled_real by lia.
  assert (P0 : 0 < 2 ^ k) by (apply Z.pow_pos_nonneg; lia). apply IZR_lt in P0.
  assert (FB : (Rabs (IZR F / IZR (2 ^ k)) <= / 2)%R).
  { unfold Rdiv. rewrite Rabs_mult, (Rabs_pos_eq (/ IZR (2 ^ k))) by (left; apply Rinv_0_lt_compat; exact P0). rewrite <- abs_IZR. apply IZR_le in HF2. rewrite mult_IZR in HF2.
    apply (Rmult_le_reg_r (IZR (2 ^ k))); [exact P0|]. rewrite Rmult_assoc, Rinv_l, Rmult_1_r by lra. lra. }
  apply Rabs_le_inv in FB. assert (ZR : (0 <= IZR z <= 261120)%R) by (split; [apply (IZR_le 0)|apply (IZR_le _ 261120)]; lia). lra.
Qed.
Lemma tab_cons cc id k : In (cc, id, k) (standard_signals ++ z_tracking) -> cons_of k = Some cc.
Proof. intros I. cbn in I. repeat (destruct I as [I|I]; [injection I as <- <- <-; reflexivity|]). destruct I. Qed.

Section OneCell.
Variables (i s g : Z).
Hypothesis Hi : 0 <= i < set_count (cell_mask h).
Hypothesis Hs : 0 <= s < set_count (sat_mask h).
Hypothesis Hg : 0 <= g < set_count (sig_mask h).
Hypothesis Hcell : cell_is (cell_mask h) (set_count (sig_mask h)) i s g.
Let sv : dsig := sig_value ty (col_sat ty w s) (col_sig ty w i).
Let G : bool := cons_eqb c cGLO.
Let sd : dsat := sat_value ty G (col_sat ty w s).

Lemma cell_bits : ubits 8 (znth 0 s (w_int w)) /\ ubits 4 (znth 0 s (w_info w)) /\ sbits 14 (znth 0 s (w_rate w)) /\ sbits (pr_bits ty) (znth 0 i (w_pr w)) /\ sbits (cp_bits ty) (znth 0 i (w_cp w)) /\
  ubits (lock_bits ty) (znth 0 i (w_lock w)) /\ ubits (cnr_bits ty) (znth 0 i (w_cnr w)) /\ sbits 15 (znth 0 i (w_dop w)).
Proof.
  destruct Hw as ((W1 & W2 & W3 & W4) & (W5 & W6 & W7 & W8 & W9 & W10) & F1 & F2 & F3 & F4 & F5 & F6 & F7 & F8 & F9).
  split; [apply Forall_znth; [assumption|lia]|]. split; [apply Forall_znth; [assumption|lia]|]. split; [apply Forall_znth; [assumption|lia]|]. split; [apply Forall_znth; [assumption|lia]|].
  split; [apply Forall_znth; [assumption|lia]|]. split; [apply Forall_znth; [assumption|lia]|]. split; [apply Forall_znth; [assumption|lia]|apply Forall_znth; [assumption|lia]].
Qed.
Lemma odd_eq : ((ty =? 5) || (ty =? 7)) = with_rates ty. Proof. reflexivity. Qed.
Lemma ext_eq : ((ty =? 6) || (ty =? 7)) = hi_res ty. Proof. reflexivity. Qed.
Lemma valids : (dv_pr sv = true <-> range_valid ty w i s) /\ (dv_cp sv = true <-> phase_valid ty w i s) /\ (dv_dop sv = true <-> rate_valid ty w i s) /\
  dv_lock sv = true /\ d_hca sv = znth false i (w_hca w) /\ dv_cnr sv = negb (znth 0 i (w_cnr w) =? 0).
Proof.
  unfold sv, sig_value, range_valid, phase_valid, rate_valid, pr_bits, cp_bits. cbv zeta. rewrite odd_eq, ext_eq. cbn [dv_pr dv_cp dv_dop dv_lock d_hca dv_cnr col_sat col_sig r_int r_pr r_cp r_cnr r_dop r_rate r_hca].
  rewrite !andb_true_iff, !negb_true_iff, !Z.eqb_neq. unfold MSM_ROUGH_RANGE_INVALID, MSM_PR_EXT_INVALID, MSM_PR_INVALID, MSM_CP_EXT_INVALID, MSM_CP_INVALID, MSM_ROUGH_RATE_INVALID, MSM_DOP_INVALID.
  split; [destruct (hi_res ty); reflexivity|]. split; [destruct (hi_res ty); reflexivity|]. split; [|split; [reflexivity|split; reflexivity]].
  destruct (with_rates ty); [tauto|]. split; [intros [[? ?] ?]; discriminate|intros [? _]; discriminate].
Qed.
Lemma pr_exact : range_valid ty w i s -> dexact (d_pr sv) (range_msec ty w i s) /\ (-1 <= range_msec ty w i s <= 256)%R.
Proof.
  intros V. pose proof (proj2 (proj1 valids) V) as DV. destruct V as [V1 V2]. destruct cell_bits as (_ & _ & _ & B & _). unfold sbits, pr_bits in B.
  destruct Hw as ((W1 & _) & _).
  assert (X : d_pr sv = dadd (rough_ms (col_sat ty w s)) (dmul (dofZ (znth 0 i (w_pr w))) (P2 (if hi_res ty then 29 else 24)))).
  { unfold sv, sig_value in DV |- *. cbv zeta in DV |- *. rewrite ?odd_eq, ?ext_eq in DV |- *. cbn [dv_pr d_pr] in DV |- *. rewrite DV. unfold sat_value. cbn [ds_range col_sat r_int]. unfold MSM_ROUGH_RANGE_INVALID.
    rewrite (proj2 (Z.eqb_neq _ _) V1). reflexivity. }
  rewrite X. unfold range_msec.
  destruct (range_exact s (if hi_res ty then 29 else 24) (znth 0 i (w_pr w))) as (A1 & A2); [lia|exact V1|destruct (hi_res ty); lia|destruct (hi_res ty); lia|destruct (hi_res ty); lia|].
  split; assumption.
Qed.
Lemma cp_exact : phase_valid ty w i s -> dexact (d_cp sv) (phase_msec ty w i s) /\ (-1 <= phase_msec ty w i s <= 256)%R.
Proof.
  intros V. pose proof (proj2 (proj1 (proj2 valids)) V) as DV. destruct V as [V1 V2]. destruct cell_bits as (_ & _ & _ & _ & B & _). unfold sbits, cp_bits in B.
  destruct Hw as ((W1 & _) & _).
  assert (X : d_cp sv = dadd (rough_ms (col_sat ty w s)) (dmul (dofZ (znth 0 i (w_cp w))) (P2 (if hi_res ty then 31 else 29)))).
  { unfold sv, sig_value in DV |- *. cbv zeta in DV |- *. rewrite ?odd_eq, ?ext_eq in DV |- *. cbn [dv_cp d_cp] in DV |- *. rewrite DV. unfold sat_value. cbn [ds_range col_sat r_int]. unfold MSM_ROUGH_RANGE_INVALID.
    rewrite (proj2 (Z.eqb_neq _ _) V1). reflexivity. }
  rewrite X. unfold phase_msec.
  destruct (range_exact s (if hi_res ty then 31 else 29) (znth 0 i (w_cp w))) as (A1 & A2); [lia|exact V1|destruct (hi_res ty); lia|destruct (hi_res ty); lia|destruct (hi_res ty); lia|].
  split; assumption.
Qed.
Lemma rate_eq : rate_valid ty w i s -> d_rate sv = dadd (dofZ (znth 0 s (w_rate w))) (dmul (dofZ (znth 0 i (w_dop w))) d1e_4).
Proof.
  intros V. pose proof (proj2 (proj1 (proj2 (proj2 valids))) V) as DV. destruct V as [V1 V2].
  unfold sv, sig_value in DV |- *. cbv zeta in DV |- *. rewrite ?odd_eq, ?ext_eq in DV |- *. cbn [dv_dop d_rate] in DV |- *. rewrite DV. unfold sat_value. cbn [ds_rate col_sat col_sig r_rate r_dop]. rewrite odd_eq, V1. reflexivity.
Qed.
Lemma cn0_val : (hi_res ty = true -> znth 0 i (w_cnr w) <= 1021) -> exists n, (if dv_cnr sv then conv 0 255 (drint (dmul (d_cnr sv) (dofZ 4))) else Some 0) = Some n /\ byte n /\
  if hi_res ty then Z.abs (4 * n - znth 0 i (w_cnr w)) <= 2 else n = 4 * znth 0 i (w_cnr w).
Proof.
  intros L. destruct valids as (_ & _ & _ & _ & _ & VN). destruct cell_bits as (_ & _ & _ & _ & _ & _ & B & _). unfold ubits, cnr_bits in B.
  assert (X : dv_cnr sv = true -> d_cnr sv = if hi_res ty then dmul (dofZ (znth 0 i (w_cnr w))) (P2 4) else dofZ (znth 0 i (w_cnr w))).
  { unfold sv, sig_value. cbv zeta. rewrite ?odd_eq, ?ext_eq. cbn [dv_cnr d_cnr]. intros ->. reflexivity. }
  rewrite VN in *. destruct (Z.eqb_spec (znth 0 i (w_cnr w)) 0) as [Q|Q]; cbn [negb] in *.
  - exists 0. rewrite Q. split; [reflexivity|]. split; [unfold byte; lia|]. destruct (hi_res ty); lia.
  - rewrite (X eq_refl). destruct (hi_res ty).
    + destruct (cnr_ext (znth 0 i (w_cnr w))) as (n & E & N1 & N2); [specialize (L eq_refl); lia|]. exists n. split; [exact E|]. split; [unfold byte; lia|exact N1].
    + exists (4 * znth 0 i (w_cnr w)). split; [apply cnr_back; lia|]. split; [unfold byte; lia|reflexivity].
Qed.
Lemma lock_val : let n := if dv_lock sv then encode_lock_d (d_lock sv) else 0 in let t := lock_ms ty (znth 0 i (w_lock w)) in
  0 <= n <= 15 /\ (n = 0 -> t < 32) /\ (0 < n -> 2 ^ (n + 4) <= t) /\ (0 < n < 15 -> t < 2 ^ (n + 5)).
Proof.
  cbv zeta. destruct cell_bits as (_ & _ & _ & _ & _ & B & _). unfold ubits, lock_bits in B. apply lock_fits_spec.
  replace (dv_lock sv) with true by (symmetry; apply valids).
  replace (d_lock sv) with (if hi_res ty then ddiv (dofZ (from_lock_ext (znth 0 i (w_lock w)))) (dofZ 1000) else lock_time_d (znth 0 i (w_lock w))) by reflexivity.
  apply lock_num. destruct (hi_res ty); lia.
Qed.

(** the signal and satellite of the cell *)
Variables (k : code) (sat : Z).
Hypothesis Hcode : msm_signal_to_code (decoded_hdr h) g = Some k.
Hypothesis Hprn : msm_sat_to_prn (decoded_hdr h) s = Some sat.
Hypothesis Hk : k <> CODE_INVALID.
Hypothesis Hsat : sat <> PRN_INVALID.
Hypothesis Hcons : cons_of k = Some c.
Hypothesis Hpos : sat_pos c sat (sat - first_prn c).
Let ch : Z := channel ty w fcns s sat.
Let fc : Z := if G then ch else MSM_GLO_FCN_UNKNOWN.
Hypothesis Hrep : representable carrier ty w b fcns i s k sat.
Hypothesis HV : range_valid ty w i s.

Lemma glo_is : glo_code k = G. Proof. apply glo_cons. exact Hcons. Qed.
Lemma chan_range : glo_code k = true -> 0 <= ch <= 13 \/ (with_rates ty = false /\ ch = 255).
Proof.
  intros K. destruct Hrep as (_ & _ & _ & R). specialize (R K). unfold ch, channel. destruct cell_bits as (_ & B & _). unfold ubits in B. destruct (with_rates ty) eqn:WR; [left; specialize (R eq_refl); lia|].
  rewrite glo_is in K. unfold G in K. apply cons_eqb_spec in K. rewrite K in Hpos. destruct Hpos as [R1 _]. cbn [first_prn prn_count] in R1.
  destruct FM as [L F]. fold fcns in L, F. assert (Q : 0 <= znth 255 sat fcns <= 13 \/ znth 255 sat fcns = 255) by (apply (Forall_znth (fun f => 0 <= f <= 13 \/ f = 255)); [exact F|lia]). destruct Q as [Q|Q]; [left; exact Q|right; split; [reflexivity|exact Q]].
Qed.
Lemma fcn_got : exists q, msm_get_glo_fcn (decoded_hdr h) s (ds_fcn sd) (rc_fcns rc) = Some (q, if G then ch else 0).
Proof.
  unfold msm_get_glo_fcn. change (mh_num (decoded_hdr h)) with (mh_num h). fold c. fold G. destruct G eqn:EG; cbn [negb]; [|eexists; reflexivity].
  unfold sd, sat_value. rewrite odd_eq. cbn [ds_fcn andb]. unfold ch, channel. destruct (with_rates ty) eqn:WR; cbn [negb].
  - unfold col_sat. cbn [r_info]. rewrite WR. destruct cell_bits as (_ & B & _). unfold ubits in B. replace (znth 0 s (w_info w) =? MSM_GLO_FCN_UNKNOWN) with false by (unfold MSM_GLO_FCN_UNKNOWN; lia). eexists. reflexivity.
  - rewrite Z.eqb_refl. unfold G in EG. apply cons_eqb_spec in EG. rewrite Hprn. assert (P := Hpos). rewrite EG in P. destruct P as [R1 _]. cbn [first_prn prn_count] in R1.
    destruct FM as [L F]. rewrite L. replace ((0 <=? sat) && (sat <? 29)) with true by lia.
    replace (znth 0 sat (rc_fcns rc)) with (znth 255 sat fcns) by (unfold znth, fcns; apply nth_indep; unfold len in L; lia). eexists. reflexivity.
Qed.
Lemma freq_got : (tuned ty w fcns k s sat -> exists fr, signal_freq carrier k fc = Some fr /\ dexact fr (scaled (hertz carrier k ch) 0) /\ 1100000000 <= hertz carrier k ch <= 1700000000) /\
  (~ tuned ty w fcns k s sat -> signal_freq carrier k fc = None).
Proof.
  unfold tuned. fold ch. unfold fc. pose proof chan_range as CR. rewrite glo_is in *. destruct (G) eqn:EG.
  - split.
    + intros T. specialize (T eq_refl). destruct (CR eq_refl) as [R|[_ R]]; [|contradiction]. apply freq_exact; [exact CAR|exact Hk|lia].
    + intros T. apply freq_none; [rewrite glo_is; exact EG|]. destruct (Z.eq_dec ch 255); [assumption|]. exfalso. apply T. intros _. assumption.
  - split; [|intros T; exfalso; apply T; discriminate]. intros _. rewrite (freq_indep carrier k _ ch) by (rewrite glo_is; exact EG). apply freq_exact; [exact CAR|exact Hk|]. rewrite glo_is, EG. discriminate.
Qed.
Lemma bias_got : exists sb cb pb, bias_of op k fc = (sb, cb, pb) /\ ab sb (b_signal b k) 0 /\ (Rabs (b_signal b k) <= 1000000)%R /\
  ab cb (per_channel ty w fcns (b_code b) k s sat) (/ 20000)%R /\ (Rabs (per_channel ty w fcns (b_code b) k s sat) <= 800)%R /\
  ab pb (per_channel ty w fcns (b_phase b) k s sat) (/ 20000)%R /\ (Rabs (per_channel ty w fcns (b_phase b) k s sat) <= 800)%R.
Proof.
  destruct OP as (O1 & O2 & O3 & O4 & O5 & O6). fold b in O4, O5, O6.
  assert (Z0 : ab d0 0%R (/ 20000)%R) by (apply (ab_weaken _ _ 0%R); [apply (ab_Z 0); lia|lra]). assert (R0 : (Rabs 0 <= 800)%R) by (rewrite Rabs_R0; lra).
  assert (CH : forall (o : bool -> binary32), (forall x, is_finite 24 128 (o x) = true) -> (forall x, (Rabs (B2R 24 128 (o x)) <= 100)%R) -> glo_code k = true ->
     ab (if negb (fc =? MSM_GLO_FCN_UNKNOWN) then channel_bias fc (o (on_L2 k)) else d0) (per_channel ty w fcns (fun x => B2R 24 128 (o x)) k s sat) (/ 20000)%R /\
     (Rabs (per_channel ty w fcns (fun x => B2R 24 128 (o x)) k s sat) <= 800)%R).
  { intros o F B K. unfold per_channel. fold ch. rewrite K. unfold fc. rewrite <- glo_is, K. unfold MSM_GLO_FCN_UNKNOWN. destruct (chan_range K) as [R|[_ R]].
    - replace (ch =? 255) with false by lia. cbn [negb]. apply (channel_ab ch (o (on_L2 k))); [lia|apply F|apply B].
    - rewrite R. cbn [Z.eqb Pos.eqb negb]. split; assumption. }
  unfold bias_of. destruct (msm_glo_fcn_bias op k fc) as [cb pb] eqn:EB. exists (dofflt (op_signal op k)), cb, pb.
  split; [reflexivity|]. split; [apply float_ab; apply O1|]. split; [apply O4|].
  destruct (glo_code k) eqn:K.
  - destruct (CH (op_glo_code op) O2 O5 eq_refl) as [A1 A2]. destruct (CH (op_glo_phase op) O3 O6 eq_refl) as [A3 A4].
    assert (E : cb = (if negb (fc =? MSM_GLO_FCN_UNKNOWN) then channel_bias fc (op_glo_code op (on_L2 k)) else d0) /\ pb = (if negb (fc =? MSM_GLO_FCN_UNKNOWN) then channel_bias fc (op_glo_phase op (on_L2 k)) else d0)).
    { unfold msm_glo_fcn_bias in EB. clear - K EB. destruct k; try discriminate K; cbn [on_L2]; destruct (negb (fc =? MSM_GLO_FCN_UNKNOWN)); injection EB as <- <-; split; reflexivity. }
    destruct E as [-> ->]. split; [exact A1|]. split; [exact A2|]. split; [exact A3|exact A4].
  - assert (E : (cb, pb) = (d0, d0)) by (rewrite <- EB; clear - K; destruct k; try discriminate K; reflexivity). injection E as -> ->.
    unfold per_channel. rewrite K. split; [exact Z0|]. split; [exact R0|]. split; [exact Z0|exact R0].
Qed.
Lemma b_reflect (x : bool) (P : Prop) : (x = true <-> P) -> (x = true /\ P) \/ (x = false /\ ~ P).
Proof. intros H. destruct x; [left; split; [reflexivity|apply H; reflexivity]|right; split; [reflexivity|intros Q; apply H in Q; discriminate]]. Qed.
Lemma cell_value : exists o, (let '(sb, cb, pb) := bias_of op k fc in cell_obs_b num_of sb cb pb (signal_freq carrier k fc) k sat sv) = Some o /\
  obs_says carrier ty w b fcns i s k sat (num_of k) o.
Proof.
  destruct bias_got as (sb & cb & pb & -> & S1 & S2 & C1 & C2 & P1 & P2). destruct freq_got as [FT FN]. destruct valids as (VP & VC & VD & VL & VH & VN).
  pose proof Hrep as (R1 & R2 & R3 & _).
  destruct (pr_exact HV) as [PX PB]. unfold range_metres, C_M_S in R1.
  destruct (range_num _ _ _ _ _ _ PX PB S1 S2 C1 C2 R1) as (P & EP & BP & NP).
  destruct (cn0_val R3) as (cn & EN & BN & NN). pose proof lock_val as LV. cbv zeta in LV. set (lk := if dv_lock sv then encode_lock_d (d_lock sv) else 0) in *.
  set (fv := match signal_freq carrier k fc with Some _ => true | None => false end). set (fr := match signal_freq carrier k fc with Some f => f | None => d0 end).
  assert (TU : fv = true <-> tuned ty w fcns k s sat).
  { unfold fv. split.
    - intros Q. destruct (signal_freq carrier k fc) eqn:E; [|discriminate]. unfold tuned. intros K N. assert (X : ~ tuned ty w fcns k s sat) by (intros Y; exact (Y K N)). specialize (FN X). congruence.
    - intros Q. destruct (FT Q) as (x & -> & _). reflexivity. }
  assert (A2 : exists li lf, (if dv_cp sv && fv then split256 (- 2 ^ 31) (2 ^ 31 - 1) (dadd (ddiv (dmul (d_cp sv) fr) (dofZ 1000)) pb) else Some (0, 0)) = Some (li, lf) /\ li <= 2 ^ 31 - 1 /\
     (dv_cp sv && fv = true -> 0 <= lf < 256 /\ (Rabs (IZR li + IZR lf / 256 - phase_cycles carrier ty w b fcns i s k sat) <= / 512 + / 10000)%R)).
  { destruct (dv_cp sv && fv) eqn:Q; [|exists 0, 0; split; [reflexivity|split; [lia|discriminate]]]. apply andb_true_iff in Q. destruct Q as [Q1 Q2].
    apply VC in Q1. apply TU in Q2. destruct (cp_exact Q1) as [CX CB]. destruct (FT Q2) as (x & EX & DX & RX). unfold fr. rewrite EX.
    destruct (phase_num _ _ _ _ _ _ CX CB RX DX P1 P2) as (li & lf & E & B1 & B2 & B3). exists li, lf. split; [exact E|]. split; [exact B1|]. intros _. split; [exact B2|exact B3]. }
  assert (A4 : exists di df, (if dv_dop sv && fv then split256 (- 2 ^ 15) (2 ^ 15 - 1) (ddiv (dmul (dopp (d_rate sv)) fr) GPS_C) else Some (0, 0)) = Some (di, df) /\ to_signed 16 di = di /\
     (dv_dop sv && fv = true -> 0 <= df < 256 /\ (Rabs (IZR di + IZR df / 256 - doppler_hz carrier ty w fcns i s k sat) <= / 512 + / 1000000)%R)).
  { destruct (dv_dop sv && fv) eqn:Q; [|exists 0, 0; split; [reflexivity|split; [reflexivity|discriminate]]]. apply andb_true_iff in Q. destruct Q as [Q1 Q2].
    apply VD in Q1. apply TU in Q2. rewrite (rate_eq Q1). destruct (FT Q2) as (x & EX & DX & RX). unfold fr. rewrite EX. specialize (R2 Q1 Q2).
    destruct cell_bits as (_ & _ & B1 & _ & _ & _ & _ & B2). unfold sbits in B1, B2. destruct Q1 as (_ & N1 & N2).
    destruct (rate_num (znth 0 s (w_rate w)) (znth 0 i (w_dop w)) _ _ ltac:(clear - B1 N1; lia) ltac:(clear - B2 N2; lia) RX DX R2) as (di & df & E & D1 & D2 & D3).
    exists di, df. split; [exact E|]. split; [|intros _; split; [exact D2|exact D3]].
    unfold to_signed. change (2 ^ (16 - 1)) with 32768. change (2 ^ 16) with 65536. cbv zeta. change (2 ^ 15) with 32768 in D1. clear - D1. destruct (Z.ltb_spec (di mod 65536) 32768); lia. }
  destruct A2 as (li & lf & A2 & LI & V2). destruct A4 as (di & df & A4 & TS & V4).
  set (vc := dv_cp sv && fv) in *. set (vd := dv_dop sv && fv) in *.
  assert (VCe : vc = true <-> phase_valid ty w i s /\ tuned ty w fcns k s sat) by (unfold vc; rewrite andb_true_iff, VC, TU; reflexivity).
  assert (VDe : vd = true <-> rate_valid ty w i s /\ tuned ty w fcns k s sat) by (unfold vd; rewrite andb_true_iff, VD, TU; reflexivity).
  set (o := mkpobs P li lf di df cn lk (F_CODE + (if vc then F_PHASE + (if d_hca sv then 0 else F_HALF) else 0) + (if vd then F_DOPPLER else 0)) sat (num_of k)).
  exists o. split.
  { unfold cell_obs_b. cbv zeta. rewrite EP. fold fv fr. fold vc vd. rewrite A2, EN, A4. rewrite (proj2 (Z.ltb_ge _ _) LI). rewrite TS. reflexivity. }
  assert (FL : flag o 0 = true /\ flag o 1 = vc /\ flag o 2 = (vc && negb (d_hca sv)) /\ flag o 3 = vd).
  { unfold flag. cbn [o_flags o]. clear. destruct vc, vd, (d_hca sv); split; try reflexivity; split; try reflexivity; split; reflexivity. }
  destruct FL as (FL0 & FL1 & FL2 & FL3). unfold obs_says. rewrite FL0, FL1, FL2, FL3. cbn [o_sat o_code o_P o_Li o_Lf o_Di o_Df o_cn0 o_lock o].
  split; [reflexivity|]. split; [reflexivity|]. split; [reflexivity|]. split; [exact BP|]. split; [exact NP|]. split; [exact VCe|]. split; [exact V2|].
  split; [rewrite VH; rewrite andb_true_iff, negb_true_iff; reflexivity|]. split; [exact VDe|]. split; [exact V4|]. split; [exact NN|]. split; [exact BN|]. exact LV.
Qed.
End OneCell.

Lemma cell_ok i s g : cell_is (cell_mask h) (set_count (sig_mask h)) i s g -> all_representable carrier ty h w b (rc_masked rc) fcns ->
  exists r, cell_to_sbp_b carrier num_of (bias_of op) rc (decoded_hdr h) s g (sat_value ty (cons_eqb c cGLO) (col_sat ty w s)) (sig_value ty (col_sat ty w s) (col_sig ty w i)) = Some r /\
    cell_outcome carrier ty h w b (rc_masked rc) fcns num_of i s r.
Proof.
  intros Hc AR. destruct (cells_facts ty h Hh) as (CL & CI & CS). cbv zeta in *.
  pose proof (proj1 (CI i s g) Hc) as [Ri Zi]. pose proof (CS i Ri) as Rs. rewrite Zi in Rs. cbn [fst] in Rs. rewrite CL in Ri. pose proof Hc as [_ Rg].
  pose proof Hh as Hh'. unfold msm_hdr_ok in Hh'. destruct Hh' as (_ & NC & _ & _ & _ & _ & _ & _ & _ & _ & _ & K1 & K2 & _).
  destruct (nth_set_ex (mkomsg h [] []) (sat_mask h) s Rs) as (p & Hp). destruct (nth_set_ex (mkomsg h [] []) (sig_mask h) g Rg) as (j & Hj).
  assert (SC : msm_signal_to_code (decoded_hdr h) g = Some (get_msm_code c (j + 1))).
  { unfold msm_signal_to_code. change (sig_mask (decoded_hdr h)) with (sig_mask h). change (mh_num (decoded_hdr h)) with (mh_num h). rewrite <- K2. apply find_spec in Hj; [|lia]. rewrite Hj. reflexivity. }
  assert (CN : cons_eqb c cINVALID = false) by (apply not_true_iff_false; rewrite cons_eqb_spec; exact NC).
  set (q := (first_prn c + p) mod 256).
  assert (SP : msm_sat_to_prn (decoded_hdr h) s = Some (if prn_valid c q then q else PRN_INVALID)).
  { unfold msm_sat_to_prn. change (sat_mask (decoded_hdr h)) with (sat_mask h). change (mh_num (decoded_hdr h)) with (mh_num h). fold c. rewrite CN, <- K1. apply find_spec in Hp; [|lia]. rewrite Hp. reflexivity. }
  assert (PV : prn_valid c q = true -> sat_pos c q p /\ q <> PRN_INVALID).
  { intros V. apply prn_valid_spec in V. destruct V as [_ [R _]]. pose proof Hp as ((P1 & P2) & _ & _). rewrite K1 in P2. unfold q in *. clear - R P1 P2.
    unfold sat_pos, PRN_INVALID. destruct c; cbn [first_prn prn_count] in *; lia. }
  assert (PI : forall sat, sat_pos c sat p -> prn_valid c q = true /\ sat = q).
  { intros sat [R E]. assert (X : sat = q) by (unfold q; clear - R E; destruct c; cbn [first_prn prn_count] in *; lia). split; [|exact X]. apply prn_valid_spec. split; [exact NC|]. rewrite <- X. split; [exact R|reflexivity]. }
  set (k := get_msm_code c (j + 1)) in *.
  (* what the cell can describe *)
  assert (DI : forall k' sat, describes h i s k' sat -> k' = k /\ k <> CODE_INVALID /\ sat = q /\ prn_valid c q = true).
  { intros k' sat (g' & p' & j' & Q1 & Q2 & Q3 & Q4 & Q5). apply CI in Q1. destruct Q1 as [_ Q1]. rewrite Zi in Q1. injection Q1 as <-.
    pose proof (nth_set_fun (sat_mask h) _ _ _ ltac:(lia) Q2 Hp) as ->. pose proof (nth_set_fun (sig_mask h) _ _ _ ltac:(lia) Q4 Hj) as ->. fold c in Q3, Q5.
    destruct (table_complete _ _ _ Q5) as (T1 & T2 & _). destruct (PI _ Q3) as [V ->]. unfold k. rewrite T1. split; [reflexivity|]. split; [exact T2|]. split; [reflexivity|exact V]. }
  assert (DD : k <> CODE_INVALID -> prn_valid c q = true -> describes h i s k q).
  { intros NK V. exists g, p, j. split; [exact Hc|]. split; [exact Hp|]. split; [apply (PV V)|]. split; [exact Hj|]. apply table_sound. exact NK. }
  unfold cell_to_sbp_b. rewrite SC, SP.
  destruct (code_eqb k CODE_INVALID) eqn:EK; cbn [orb].
  { apply code_eqb_spec in EK. exists None. split; [reflexivity|]. intros k' sat D. destruct (DI _ _ D) as (_ & N & _). contradiction. }
  assert (NK : k <> CODE_INVALID) by (intros N; apply code_eqb_spec in N; congruence). clear EK.
  destruct (prn_valid c q) eqn:V.
  2:{ cbn. exists None. split; [reflexivity|]. intros k' sat D. destruct (DI _ _ D) as (_ & _ & _ & N). discriminate N. }
  destruct (PV eq_refl) as [SPq NP]. replace (q =? PRN_INVALID) with false by (symmetry; apply Z.eqb_neq; exact NP).
  assert (D := DD NK eq_refl). assert (CO : cons_of k = Some c) by (apply (tab_cons c (j + 1)); apply table_sound; exact NK). rewrite CO.
  destruct (rc_masked rc c) eqn:MK; cbn [orb].
  { exists None. split; [reflexivity|]. intros k' sat _. left. exact MK. }
  rewrite unsupported_eq. destruct (discarded_signal k) eqn:DS; cbn [orb].
  { exists None. split; [reflexivity|]. intros k' sat D'. right. left. destruct (DI _ _ D') as (-> & _). exact DS. }
  destruct (valids i s g Ri Rs Rg) as (VP & _). 
  destruct (b_reflect _ _ VP) as [[DV RV]|[DV RV]]; rewrite DV; cbn [negb].
  2:{ exists None. split; [reflexivity|]. intros k' sat _. right. right. exact RV. }
  pose proof (AR i s k q D MK DS RV) as REP.
  assert (SPx : sat_pos c q (q - first_prn c)) by (split; [apply SPq|reflexivity]).
  assert (FG : exists f, msm_get_glo_fcn (decoded_hdr h) s (ds_fcn (sat_value ty (cons_eqb c cGLO) (col_sat ty w s))) (rc_fcns rc) = Some (f, if cons_eqb c cGLO then channel ty w fcns s q else 0))
    by (eapply fcn_got; try eassumption; rewrite SP; reflexivity).
  destruct FG as (f & FG).
  rewrite FG.
  destruct (cell_value i s g Ri Rs Rg k q NK CO SPx REP RV) as (o & EO & SO). fold c in EO.
  change (mh_num (decoded_hdr h)) with (mh_num h). fold c. cbv zeta.
  replace (if cons_eqb c cGLO then if cons_eqb c cGLO then channel ty w fcns s q else 0 else MSM_GLO_FCN_UNKNOWN) with
    (if cons_eqb c cGLO then channel ty w fcns s q else MSM_GLO_FCN_UNKNOWN) by (destruct (cons_eqb c cGLO); reflexivity).
  destruct (bias_of op k _) as [[sb cb] pb]. rewrite EO. exists (Some o). split; [reflexivity|]. exists k, q. split; [exact D|]. split; [exact MK|]. split; [exact DS|]. split; [exact RV|exact SO].
Qed.
Definition some_list {A} (o : option A) : list A := match o with Some x => [x] | None => [] end.
Lemma message_ok pad p : bits_of_bytes p = fields_bits (wire_header h ++ wire_columns ty w) ++ pad -> all_representable carrier ty h w b (rc_masked rc) fcns ->
  exists m rs, run_dec (decode_msm_d ty) p = Ok m /\ to_sbp_b carrier num_of (bias_of op) rc m = Some (flat_map some_list rs) /\ len rs = set_count (cell_mask h) /\
    forall i s g, cell_is (cell_mask h) (set_count (sig_mask h)) i s g -> cell_outcome carrier ty h w b (rc_masked rc) fcns num_of i s (znth None i rs).
Proof.
  intros E AR. destruct (raw_wire pad) as [r RW]. destruct (cells_facts ty h Hh) as (CL & CI & CS). cbv zeta in *.
  pose proof Hw as ((W1 & _) & (W5 & _) & _).
  set (ss := mapi 0 (fun s (_ : Z) => col_sat ty w s) (w_int w)) in *. set (gs := mapi 0 (fun i (_ : Z) => col_sig ty w i) (w_pr w)) in *.
  set (cs := cells (num_sats h) (num_sigs h) (cell_mask h)) in *.
  set (m := msg_value ty (decoded_hdr h, ss, gs)).
  assert (EM : run_dec (decode_msm_d ty) p = Ok m) by (unfold run_dec, decode_msm_d; rewrite E, (dbind_eq _ _ _ _ _ RW); reflexivity).
  set (f := fun i (x : Z * Z) => cell_to_sbp_b carrier num_of (bias_of op) rc (decoded_hdr h) (fst x) (snd x) (znth no_dsat (fst x) (dm_sats m)) (znth no_dsig i (dm_sigs m))).
  assert (EF : forall i s g, cell_is (cell_mask h) (set_count (sig_mask h)) i s g ->
     f i (s, g) = cell_to_sbp_b carrier num_of (bias_of op) rc (decoded_hdr h) s g (sat_value ty (cons_eqb c cGLO) (col_sat ty w s)) (sig_value ty (col_sat ty w s) (col_sig ty w i))).
  { intros i s g Hc. pose proof (proj1 (CI i s g) Hc) as [Ri Zi]. pose proof (CS i Ri) as Rs. rewrite Zi in Rs. cbn [fst] in Rs. unfold f. cbn [fst snd].
    assert (SS : len ss = len (w_int w)) by (unfold ss; apply len_mapi).
    assert (X1 : znth no_dsat s (dm_sats m) = sat_value ty (cons_eqb c cGLO) (col_sat ty w s)).
    { unfold m, msg_value. cbn [dm_sats]. rewrite (znth_map _ no_rsat) by lia. unfold ss. rewrite (znth_mapi _ 0) by lia. reflexivity. }
    assert (X2 : znth no_dsig i (dm_sigs m) = sig_value ty (col_sat ty w s) (col_sig ty w i)).
    { unfold m, msg_value. cbn [dm_sigs]. change (num_sats (decoded_hdr h)) with (num_sats h). change (num_sigs (decoded_hdr h)) with (num_sigs h). change (cell_mask (decoded_hdr h)) with (cell_mask h). fold cs.
      rewrite (znth_mapi _ (0, 0)) by exact Ri. cbn [Z.add]. rewrite Zi. cbn [fst]. unfold ss, gs. rewrite (znth_mapi _ 0), (znth_mapi _ 0) by lia. reflexivity. }
    rewrite X1, X2. reflexivity. }
  destruct (all_some_total None (mapi 0 f cs)) as (rs & RS & LR & ER).
  { intros i Hi. rewrite len_mapi in Hi. rewrite (znth_mapi _ (0, 0)) by exact Hi. cbn [Z.add]. destruct (znth (0, 0) i cs) as [s g] eqn:Z.
    assert (Hc := proj2 (CI i s g) (conj Hi Z)). destruct (cell_ok i s g Hc AR) as (x & EX & _). exists x. rewrite (EF i s g Hc). exact EX. }
  rewrite len_mapi in LR, ER. exists m, rs. split; [exact EM|]. split; [|split].
  - unfold to_sbp_b. cbv zeta. change (dm_hdr m) with (decoded_hdr h).
    change (num_sats (decoded_hdr h)) with (num_sats h). change (num_sigs (decoded_hdr h)) with (num_sigs h). change (cell_mask (decoded_hdr h)) with (cell_mask h). fold cs. fold f. rewrite RS. reflexivity.
  - rewrite LR. exact CL.
  - intros i s g Hc. pose proof (proj1 (CI i s g) Hc) as [Ri Zi]. specialize (ER i Ri). rewrite (znth_mapi _ (0, 0)) in ER by exact Ri. cbn [Z.add] in ER. rewrite Zi, (EF i s g Hc) in ER.
    destruct (cell_ok i s g Hc AR) as (x & EX & OX). rewrite ER in EX. injection EX as EX. rewrite EX. exact OX.
Qed.
End Wire.
