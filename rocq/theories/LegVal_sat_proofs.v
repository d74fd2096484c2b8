(** C68: GLONASS time of day in double arithmetic, and one satellite from SBP observations to the integers on the wire and back. *)
From Coq Require Import Reals Lra.
From Flocq Require Import Core.
From Verif Require Import Base Bitstring Bits_model Bits_proofs Bitstream_model Bitstream_proofs RtcmStation_spec RtcmStation_proofs RtcmLegacy_model RtcmLegacy_proofs RtcmMsm_model RtcmMsm_proofs
  Signals_model Double_model Double_proofs Esf_proofs NmeaFields_proofs Exact_proofs SbpEph_spec Sbp2Rtcm_model MsmVal_model MsmVal_spec MsmVal_proofs MsmVal_cell_proofs Abs_proofs LegVal_model LegVal_spec LegVal_proofs.
From Verif Require Nmea_model.
Open Scope R_scope.

(** *** GLONASS time of day *)
Definition glo_tod_spec (tow leap : Z) : Z := ((tow + 10800000 - 1000 * leap) mod 604800000 mod 86400000)%Z.
Lemma glo_tow_exact tow leap : (0 <= tow < 604800000)%Z -> (-128 <= leap <= 127)%Z ->
  glo_tow_d tow (Some leap) = Some ((tow + 10800000 - 1000 * leap) mod 604800000)%Z.
Proof.
  intros HT HL. set (n := (tow + 10800000 - 1000 * leap)%Z). assert (NR : (0 <= n < 615728001)%Z) by (unfold n; lia).
  assert (T0 : 0 <= IZR tow <= 604800000) by (split; apply izr_le; lia). assert (L0 : -128 <= IZR leap <= 127) by (split; apply izr_le; lia).
  assert (N0 : 10600000 <= IZR n <= 615728001) by (split; apply izr_le; unfold n; lia).
  assert (NV : IZR n / 1000 = IZR tow / 1000 + 10800 - IZR leap) by (unfold n; rewrite minus_IZR, plus_IZR, mult_IZR; field).
  unfold glo_tow_d. cbv zeta.
  assert (A0 : ab (dsub (dadd (ddiv (dofZ tow) (dofZ 1000)) (dofZ 10800)) (dofZ leap)) (IZR n / 1000) (/ 1000000000)).
  { rewrite NV. apply (ab_sub 20 616000 _ _ _ _ (4 / 10000000000) 0); [|apply ab_Z; lia|lia|ra|bl|bl].
    apply (ab_add 20 616000 _ _ _ _ (1 / 10000000000) 0); [|apply ab_Z; lia|lia|ra|bl|bl].
    apply (ab_div 20 604800000 (/ 1000) _ _ _ _ 0 0); [apply ab_Z; lia|apply ab_Z; lia|lia|ra|lra|lra|lra|bl|bl]. }
  set (t := dsub _ _) in *. pose proof (ab_fin _ _ _ A0) as F. pose proof (ab_iv _ _ _ A0) as I0.
  destruct (dofZ_exact 604800 ltac:(lia)) as [FW VW]. destruct (dofZ_exact 604801 ltac:(lia)) as [FX VX]. destruct (dofZ_exact 0 ltac:(lia)) as [F0 V0].
  rewrite dltb_spec by (exact F || exact F0). change d0 with (dofZ 0). rewrite V0, Rlt_bool_false by lra.
  rewrite (dleb_spec (dofZ 604800) t FW F), VW.
  assert (FIN : forall u m, (0 <= m < 615728001)%Z -> ab u (IZR m / 1000) (/ 100000000) -> 0 <= dR u -> dR u < 604801 -> (m mod 604800000 = n mod 604800000)%Z ->
    (if Nmea_model.dleb (dofZ 0) u && dltb u (dofZ 604801) then match conv 0 (2 ^ 32 - 1) (drint (dmul u (dofZ 1000))) with Some z => Some (z mod 604800000)%Z | None => None end else None)
    = Some (n mod 604800000)%Z).
  { intros u m M A P Q E. pose proof (ab_fin _ _ _ A) as FU. assert (M0 : 0 <= IZR m <= 615728001) by (split; apply izr_le; lia).
    rewrite dleb_spec by (exact FU || exact F0). rewrite dltb_spec by (exact FU || exact FX). rewrite V0, VX. rewrite Rle_bool_true, Rlt_bool_true by assumption. cbn [andb].
    assert (B : ab (dmul u (dofZ 1000)) (IZR m / 1000 * 1000) (/ 1000)) by (apply (ab_mul 30 616000 1000 _ _ _ _ (/ 100000000) 0); [exact A|apply ab_Z; lia|lia|ra|ra|bl|bl]).
    rewrite (ab_rint_eq _ _ _ m B).
    - cbn [conv]. destruct (Z.leb_spec 0 m); [|lia]. destruct (Z.leb_spec m (2 ^ 32 - 1)); [|lia]. cbn [andb]. rewrite E. reflexivity.
    - replace (IZR m / 1000 * 1000 - IZR m) with 0 by field. rewrite Rabs_R0. lra. }
  destruct (Rle_dec 604800 (dR t)) as [LE|GT].
  - rewrite Rle_bool_true by exact LE.
    assert (NW : (604800000 <= n)%Z). { apply Z.lt_succ_r, lt_IZR. rewrite succ_IZR. apply Rmult_lt_reg_r with (/ 1000); [lra|]. lra. }
    assert (A1 : ab (dsub t (dofZ 604800)) (IZR (n - 604800000) / 1000) (/ 100000000)).
    { apply (ab_eq _ (IZR n / 1000 - IZR 604800)); [|rewrite minus_IZR; field].
      apply (ab_sub 15 11000 _ _ _ _ (/ 1000000000) 0); [exact A0|apply ab_Z; lia|lia|apply (izr_le 604800000) in NW; ra|bl|bl]. }
    destruct (dsub_spec t (dofZ 604800) F FW) as [_ VS]. { rewrite VW. apply Rle_trans with 20000; [ra|]. apply Rle_trans with (bpow radix2 20); [bpn; lra|apply bpow_le; lia]. }
    apply (FIN _ (n - 604800000)%Z); [lia|exact A1| | |].
    + rewrite VS, VW. apply (rnd_ge_z _ 0); [lia|]. lra.
    + pose proof (ab_iv _ _ _ A1) as I1. rewrite minus_IZR in I1. lra.
    + replace n with (n - 604800000 + 1 * 604800000)%Z at 2 by ring. rewrite Z.mod_add by lia. reflexivity.
  - rewrite Rle_bool_false by lra. apply (FIN _ n); [exact NR|apply (ab_weaken _ _ _ _ A0); lra|lra|lra|reflexivity].
Qed.
Lemma glo_tod_exact tow leap : (0 <= tow < 604800000)%Z -> (-128 <= leap <= 127)%Z -> glo_tod_d tow (Some leap) = Some (glo_tod_spec tow leap).
Proof. intros A B. unfold glo_tod_d. rewrite glo_tow_exact by assumption. reflexivity. Qed.

(** *** C/N0 and lock time: finite tables *)
Lemma byte_cases (f : Z -> bool) : forallb f (map Z.of_nat (seq 0 256)) = true -> forall n, byte n -> f n = true.
Proof. intros H n B. unfold byte in B. rewrite forallb_forall in H. apply H, in_map_iff. exists (Z.to_nat n). split; [lia|apply in_seq; lia]. Qed.
Definition oeqb (a b : option Z) : bool := match a, b with Some x, Some y => (x =? y)%Z | None, None => true | _, _ => false end.
Lemma oeqb_eq a b : oeqb a b = true -> a = b. Proof. destruct a, b; cbn; intros H; try discriminate; [apply Z.eqb_eq in H; congruence|reflexivity]. Qed.
Lemma cnr_out n : byte n -> conv 0 255 (dround (dmul (ddiv (dofZ n) (dofZ 4)) (dofZ 4))) = Some n.
Proof.
  intros B. apply oeqb_eq. revert n B. apply byte_cases. vm_compute. reflexivity.
Qed.
Lemma cnr_in n : byte n -> conv 0 255 (drint (dmul (cnr_value n) (dofZ 4))) = Some n.
Proof.
  intros B. apply oeqb_eq. revert n B. apply byte_cases. vm_compute. reflexivity.
Qed.
Definition lock_trip (l : Z) : bool :=
  match lock_ind_d (lock_time_d l) with Some i => (0 <=? i)%Z && (i <? 128)%Z && (encode_lock_d (dofZ (from_lock_ind i)) =? lock_after l)%Z | None => false end.
Lemma lock_out l : byte l -> exists i, lock_ind_d (lock_time_d l) = Some i /\ (0 <= i < 2 ^ 7)%Z /\ encode_lock_d (dofZ (from_lock_ind i)) = lock_after l.
Proof.
  intros B. assert (H : lock_trip l = true) by (revert l B; apply byte_cases; vm_compute; reflexivity).
  unfold lock_trip in H. destruct (lock_ind_d (lock_time_d l)) as [i|]; [|discriminate]. exists i. apply andb_true_iff in H. destruct H as [H E]. apply andb_true_iff in H. destruct H as [H1 H2].
  apply Z.leb_le in H1. apply Z.ltb_lt in H2. apply Z.eqb_eq in E. split; [reflexivity|]. split; [lia|exact E].
Qed.

(** *** one satellite *)
Definition freq_d (s : sys) (second : bool) (fcn : Z) : dbl := if second then freq2_d s fcn else freq1_d s fcn.
Lemma freq_exact_leg s second fcn : (s = GLO -> 0 <= fcn <= 20)%Z -> ab (freq_d s second fcn) (IZR (hz s second fcn)) 0 /\ (1200000000 <= hz s second fcn <= 1620000000)%Z.
Proof.
  intros H. destruct s; [destruct second; (split; [apply ab_Z; cbn; lia|cbn; lia])|]. specialize (H eq_refl).
  assert (G : forall a b, (0 <= a <= 2 ^ 31)%Z -> (0 <= b <= 1000000)%Z -> dexact (dadd (dofZ a) (dmul (dofZ (fcn - 7)) (dofZ b))) (scaled (a + (fcn - 7) * b) 0)).
  { intros a b Ha Hb. assert (M := ex_mul2 _ _ (fcn - 7) b 0 (ex_Z (fcn - 7) ltac:(lia)) (ex_Z b ltac:(lia)) ltac:(lia) ltac:(nia)).
    assert (-7000000 <= (fcn - 7) * b <= 13000000)%Z by nia.
    apply ex_add; [apply ex_Z; lia|exact M|lia|lia]. }
  destruct second; cbn [freq_d freq1_d freq2_d hz]; (split; [|lia]); apply ab_exact; rewrite <- scaled_0; apply G; lia.
Qed.
Section Sat.
Variables (s : sys) (fcns : list Z) (o1 : pobs).
Let fcn := channel s fcns o1.
Hypothesis Hfcn : (s = GLO -> 0 <= fcn <= 20)%Z.
Hypothesis H1 : leg_in_range o1.
Lemma lam_hz second o : phase_of s second fcns o1 o = IZR (o_Li o * 256 + o_Lf o) / 256 * lam (hz s second fcn).
Proof.
  destruct (freq_exact_leg s second fcn Hfcn) as [_ R]. pose proof (f_range _ R). unfold phase_of, lam, C_M_S. fold fcn. rewrite plus_IZR, mult_IZR. field. lra.
Qed.
Lemma usable_flags o : leg_in_range o -> has (o_flags o) F_CODE = true /\ has (o_flags o) F_PHASE && has (o_flags o) F_HALF = usable_obs o.
Proof.
  intros (_ & _ & _ & _ & _ & _ & B & F). destruct (has_flag o B) as (-> & -> & -> & _). unfold usable_obs. rewrite F. cbn [andb]. split; reflexivity.
Qed.
(** the transmitted first pseudorange *)
Variables A n : Z.
Hypothesis HA : (0 <= A <= match s with GPS => 255 | GLO => 127 end)%Z.
Hypothesis HA2 : (A * unit20 s <= 20 * o_P o1 <= (A + 1) * unit20 s)%Z.
Hypothesis Hn : (0 <= n < 2 ^ match s with GPS => 24 | GLO => 25 end)%Z.
Hypothesis Hc : (Z.abs (20 * n + A * unit20 s - 20 * o_P o1) <= 10)%Z.
Lemma A255 : (0 <= A <= 255)%Z. Proof. destruct s; lia. Qed.
Lemma n25 : (0 <= n < 2 ^ 25)%Z. Proof. destruct s; lia. Qed.
Lemma value_close : Rabs (value_m s n A - range_m o1) <= / 100 /\ 0 <= value_m s n A <= 77000000.
Proof.
  destruct H1 as (P0 & P1 & _). pose proof n25. pose proof (unit_pos s) as UP. pose proof A255. unfold value_m, range_m.
  assert (V0 : 0 <= IZR (20 * n + A * unit20 s)) by (apply (izr_le 0); nia).
  assert (C1 : -10 <= IZR (20 * n + A * unit20 s) - 20 * IZR (o_P o1) <= 10).
  { rewrite <- (mult_IZR 20), <- minus_IZR. split; apply izr_le; lia. }
  assert (PB : 0 <= IZR (o_P o1) <= 3822353840) by (split; apply izr_le; lia).
  split; [apply rabs_le; lra|lra].
Qed.
Lemma phase_out second o : leg_in_range o -> (usable_obs o = true -> phase_within 1000000 s second fcns o1 o) ->
  exists ph, phase_d (freq_d s second fcn) (l1_prc s A n) (freq_data o) = Some ph /\ (-524288 <= ph <= 524288)%Z /\ (usable_obs o = false -> ph = CP_INVALID) /\
    (usable_obs o = true -> exists j, (phase_within 262 s second fcns o1 o -> j = 0%Z /\ (-524287 <= ph <= 524287)%Z) /\
       split256 (- 2 ^ 31) (2 ^ 31 - 1) (rx_cycles (freq_d s second fcn) (rx_m s n A) ph) = Some (o_Li o + 1500 * j, o_Lf o)%Z /\ (o_Li o + 1500 * j <= 2 ^ 31 - 1)%Z).
Proof.
  intros Ho PW. destruct (usable_flags o Ho) as [_ UF]. unfold phase_d, freq_data. cbn [qv_cp q_cp]. rewrite UF. destruct (usable_obs o).
  2:{ exists CP_INVALID. split; [reflexivity|]. split; [unfold CP_INVALID; lia|]. split; [reflexivity|discriminate]. }
  specialize (PW eq_refl). unfold phase_within in *. rewrite lam_hz in *. destruct (freq_exact_leg s second fcn Hfcn) as [FA FR]. destruct value_close as [VC VR].
  pose proof Ho as (_ & _ & L1 & L2 & _). set (N := (o_Li o * 256 + o_Lf o)%Z) in *.
  assert (NQ : (N / 256 = o_Li o /\ N mod 256 = o_Lf o)%Z). { unfold N. rewrite Z.add_comm, Z.div_add, Z.mod_add by lia. rewrite Z.div_small, Z.mod_small by lia. split; lia. }
  destruct (phase_trip (hz s second fcn) (freq_d s second fcn) FR FA N (l1_prc s A n) (rx_m s n A) (value_m s n A)) with (cpd := dadd (dofZ (o_Li o)) (ddiv (dofZ (o_Lf o)) (dofZ 256)))
    as (ppr & j & E & PR & Z0 & SP & LE).
  - unfold N. lia.
  - apply (ab_weaken _ _ _ _ (prc_ab s n A A255 n25)). lra.
  - apply (ab_weaken _ _ _ _ (rx_ab s n A A255 n25)). lra.
  - exact VR.
  - assert (X := frac256 (o_Li o) (o_Lf o) ltac:(lia) L2). fold N in X. apply ab_exact in X. apply (ab_eq _ _ _ _ X). unfold scaled. bpn. reflexivity.
  - apply Rabs_le_inv in VC. apply Rabs_le_inv in PW. apply rabs_le. lra.
  - exists ppr. rewrite E. split; [reflexivity|]. split; [exact PR|]. split; [discriminate|]. intros _. exists j. destruct NQ as [<- <-]. split; [|split; [exact SP|exact LE]].
    intros Q. apply Z0. apply Rabs_le_inv in VC. apply Rabs_le_inv in Q. apply rabs_le. lra.
Qed.
End Sat.

Lemma signed20 ph : (-524288 <= ph <= 524288)%Z -> (to_signed 20 ph = CP_INVALID /\ (ph = -524288 \/ ph = 524288) \/ to_signed 20 ph = ph /\ -524287 <= ph <= 524287)%Z.
Proof.
  intros H. unfold CP_INVALID. destruct (Z.eq_dec ph 524288) as [-> | N]; [left; split; [reflexivity|right; reflexivity]|]. rewrite to_signed_id by lia.
  destruct (Z.eq_dec ph (-524288)) as [-> | N2]; [left; split; [reflexivity|left; reflexivity]|right; split; [reflexivity|lia]].
Qed.
(** an ambiguity ending in 5 is the number of whole light-milliseconds *)
Lemma amb_five P A : (A * 299792458 <= 20 * P <= (A + 1) * 299792458)%Z -> (A mod 10 = 5)%Z -> (20 * P / 299792458 = A)%Z.
Proof.
  intros H M. destruct (Z.eq_dec (20 * P) ((A + 1) * 299792458)) as [E | NE].
  - exfalso. pose proof (Z.div_mod A 10 ltac:(lia)) as D. rewrite M in D. set (q := (A / 10)%Z) in *. clearbody q. clear - E D. subst A. lia.
  - symmetry. apply (Z.div_unique_pos _ _ _ (20 * P - A * 299792458)); lia.
Qed.
Section In.
Variables (code_of : Z -> code) (num_of : code -> Z) (NUM : forall k, code_of (num_of k) = k).
Variables (s : sys) (fcns : list Z) (o1 : pobs).
Hypothesis Hsv : (1 <= o_sat o1 <= match s with GPS => 32 | GLO => 24 end)%Z.
Lemma sid_civil second : sbp_sid s second (o_sat o1) 0 = Some (o_sat o1, civil s second).
Proof.
  unfold sbp_sid. destruct s.
  - destruct (Z.leb_spec 1 (o_sat o1)); [|lia]. destruct (Z.leb_spec (o_sat o1) 32); [|lia]. destruct second; reflexivity.
  - destruct (Z.leb_spec 1 (o_sat o1)); [|lia]. destruct (Z.leb_spec (o_sat o1) 24); [|lia]. destruct second; reflexivity.
Qed.
Lemma freq_in second o p cpv i v P' : leg_in_range o ->
  conv 0 (2 ^ 32 - 1) (drint (dmul (dadd p d0) (dofZ 50))) = Some P' ->
  (if match s with GPS => whole_ms o1 mod 10 =? 5 | GLO => false end then Z.abs (P' - o_P o) <= 1 else P' = o_P o)%Z ->
  encode_lock_d (dofZ (from_lock_ind i)) = lock_after (o_lock o) ->
  (v = true -> exists j, (phase_within 262 s second fcns o1 o -> j = 0%Z) /\ split256 (- 2 ^ 31) (2 ^ 31 - 1) cpv = Some (o_Li o + 1500 * j, o_Lf o)%Z /\ (o_Li o + 1500 * j <= 2 ^ 31 - 1)%Z) ->
  (v = false -> ~ phase_within 262 s second fcns o1 o) ->
  exists r, freq_to_sbp num_of s second (o_sat o1) 0 (mkdfreq p cpv (cnr_value (o_cn0 o)) (dofZ (from_lock_ind i)) true v (negb (o_cn0 o =? 0)%Z) v) = Some (opt_list r) /\
    leg_outcome code_of s second fcns o1 o r.
Proof.
  intros Ho EP PP EL VT VF. unfold freq_to_sbp, freq_to_sbp_b. cbn [qv_pr qv_cp q_pr q_cp q_cnr qv_cnr q_lock qv_lock andb]. destruct v.
  2:{ exists None. split; [reflexivity|]. exact (VF eq_refl). }
  destruct (VT eq_refl) as (j & J0 & SP & LE). rewrite sid_civil, EP, SP. pose proof Ho as (_ & _ & _ & _ & BC & _).
  assert (CN : (if negb (o_cn0 o =? 0)%Z then conv 0 255 (drint (dmul (cnr_value (o_cn0 o)) (dofZ 4))) else Some 0%Z) = Some (o_cn0 o)).
  { destruct (Z.eqb_spec (o_cn0 o) 0) as [-> |]; [reflexivity|]. cbn [negb]. apply cnr_in. exact BC. }
  rewrite CN. destruct (Z.ltb_spec (2 ^ 31 - 1) (o_Li o + 1500 * j)); [lia|]. rewrite EL.
  eexists (Some _). split; [reflexivity|]. cbn [leg_outcome]. unfold leg_received. cbn [o_sat o_code o_P o_Li o_Lf o_Di o_Df o_cn0 o_lock o_flags].
  split; [reflexivity|]. split; [apply NUM|]. split; [exact PP|]. split; [reflexivity|]. split; [exists j; split; [reflexivity|exact J0]|]. repeat split.
Qed.
End In.

(** *** from the observations of a satellite to the wire integers and back *)
Definition lsat_of (s : sys) (fcns : list Z) (en : pobs * option pobs) : dlsat :=
  mkdlsat (o_sat (fst en)) (channel s fcns (fst en)) (freq_data (fst en)) (match snd en with Some o2 => freq_data o2 | None => no_dfreq end).
Definition raw_ok (s : sys) (w : lraw) : Prop :=
  (0 <= w_sv w < 2 ^ 6 /\ match s with GPS => w_fcn w = 0 | GLO => 0 <= w_fcn w < 2 ^ 5 end /\ 0 <= w_pr w < 2 ^ match s with GPS => 24 | GLO => 25 end /\
   0 <= w_lock1 w < 2 ^ 7 /\ 0 <= w_amb w < 2 ^ amb_width s /\ 0 <= w_cn1 w < 2 ^ 8 /\ -8192 <= w_dpr w < 8192 /\ 0 <= w_lock2 w < 2 ^ 7 /\ 0 <= w_cn2 w < 2 ^ 8)%Z.
Definition wire_of (w : lraw) : lraw :=
  mklraw (w_sv w) (w_fcn w) (w_pr w) (to_signed 20 (w_ph1 w)) (w_lock1 w) (w_amb w) (w_cn1 w) (w_dpr w) (to_signed 20 (w_ph2 w)) (w_lock2 w) (w_cn2 w).
Lemma raw_wire s w : raw_ok s w -> Forall width_ok (raw_fields s w) /\ (total (raw_fields s w) <= 130)%Z /\
  forall rest pad, get_raw s (fields_bits (raw_fields s w ++ rest) ++ pad) = DOk (wire_of w, 0%Z, 0%Z) (fields_bits rest ++ pad).
Proof.
  intros (R1 & R2 & R3 & R4 & R5 & R6 & R7 & R8 & R9). unfold raw_fields. destruct s; cbn [app amb_width] in *.
  - split; [widths|]. split; [cbn; lia|]. intros rest pad. unfold get_raw. cbn [app amb_width].
    rewrite bind_u by lia. rewrite bind_u by lia. cbv beta. rewrite bind_ret. rewrite bind_u by lia. rewrite bind_s_mod by lia. rewrite bind_u by lia. rewrite bind_u by lia. rewrite bind_u by lia.
    rewrite bind_u by lia. rewrite bind_s by (cbn; lia). rewrite bind_s_mod by lia. rewrite bind_u by lia. rewrite bind_u by lia. cbv beta. unfold ret, wire_of. rewrite R2. reflexivity.
  - split; [widths|]. split; [cbn; lia|]. intros rest pad. unfold get_raw. cbn [app amb_width].
    rewrite bind_u by lia. rewrite bind_u by lia. rewrite bind_u by lia. rewrite bind_u by lia. rewrite bind_s_mod by lia. rewrite bind_u by lia. rewrite bind_u by lia. rewrite bind_u by lia.
    rewrite bind_u by lia. rewrite bind_s by (cbn; lia). rewrite bind_s_mod by lia. rewrite bind_u by lia. rewrite bind_u by lia. cbv beta. unfold ret, wire_of. reflexivity.
Qed.
Section Trip.
Variables (wild : dbl -> Z) (code_of : Z -> code) (num_of : code -> Z) (NUM : forall k, code_of (num_of k) = k).
Variables (s : sys) (fcns : list Z).
Lemma sat_trip en : let o1 := fst en in
  (1 <= o_sat o1 <= match s with GPS => 32 | GLO => 24 end)%Z -> (s = GLO -> 0 <= channel s fcns o1 <= 20)%Z -> leg_in_range o1 -> usable_obs o1 = true ->
  match snd en with Some o2 => leg_in_range o2 | None => True end -> entry_ok s fcns en ->
  exists w, sat_raw wild s (lsat_of s fcns en) = Some w /\ raw_ok s w /\
    exists r, sat_to_sbp num_of s (sat_value s (wire_of w, 0%Z, 0%Z)) = Some (opt_list (fst r) ++ opt_list (snd r)) /\ entry_outcome code_of s fcns en r.
Proof.
  destruct en as [o1 oo2]. cbn [fst snd]. intros Hsv Hf H1 U1 H2 [PW EO]. cbn [fst snd] in PW, EO.
  pose proof H1 as (P0 & P1 & L1 & L2 & BC1 & BL1 & BF1 & FL1). destruct (usable_flags o1 H1) as [HC1 HU1].
  destruct (amb_spec s (o_P o1) P0 P1) as (A & EA & HA & HA2).
  assert (UB := unit_pos s).
  destruct (calc_spec s A (o_P o1)) as (n & EN & Hn & Hc); [destruct s; lia|lia|split; [lia|destruct s; cbn [unit20] in *; lia]|].
  assert (A2 : (0 <= A <= 255)%Z) by (clear - HA; destruct s; lia). assert (N2 : (0 <= n < 2 ^ 25)%Z) by (clear - Hn; destruct s; lia).
  destruct (phase_out s fcns o1 Hf H1 A n HA HA2 Hn Hc false o1 H1 (fun _ => PW)) as (ph1 & E1 & R1 & _ & T1). destruct (T1 U1) as (j1 & Z1 & S1 & LE1). clear T1.
  destruct (lock_out (o_lock o1) BL1) as (k1 & EK1 & RK1 & LK1).
  unfold sat_raw, lsat_of. cbn [ls_l1 ls_l2 ls_fcn ls_sv fst snd]. change (q_pr (freq_data o1)) with (metres (o_P o1)). rewrite EA, EN.
  change (freq1_d s (channel s fcns o1)) with (freq_d s false (channel s fcns o1)). rewrite E1.
  change (freq2_d s (channel s fcns o1)) with (freq_d s true (channel s fcns o1)).
  assert (QV : qv_pr (freq_data o1) = true) by exact HC1.
  assert (LF : forall o k, lock_ind_d (lock_time_d (o_lock o)) = Some k -> lockf_d (freq_data o) = Some k) by (intros o k E; exact E).
  assert (CF : forall o, byte (o_cn0 o) -> cnr_d (freq_data o) = Some (o_cn0 o)) by (intros o B; exact (cnr_out _ B)).
  rewrite (LF o1 k1 EK1), (CF o1 BC1), QV.
  assert (PR1 : pr_d wild s A (metres (o_P o1)) = n) by (unfold pr_d; unfold calc_d in EN; rewrite EN; reflexivity). rewrite PR1.
  (* receiver, first signal *)
  assert (RXA : ab (rx_m s n A) (value_m s n A) (3 / 10000000)) by (apply (ab_weaken _ _ _ _ (rx_ab s n A A2 N2)); lra).
  destruct (P_back s (rx_m s n A) n A (o_P o1) A2 ltac:(lia) ltac:(lia) RXA Hc) as (P1' & EP1 & PP1).
  assert (FIVE : forall P' P, (if match s with GPS => A mod 10 =? 5 | GLO => false end then Z.abs (P' - P) <= 1 else P' = P)%Z ->
                 (if match s with GPS => whole_ms o1 mod 10 =? 5 | GLO => false end then Z.abs (P' - P) <= 1 else P' = P)%Z).
  { intros P' P. destruct s; [|auto]. destruct (Z.eqb_spec (A mod 10) 5) as [M5|M5].
    - unfold whole_ms. rewrite (amb_five _ _ HA2 M5), M5. auto.
    - intros ->. destruct (_ =? 5)%Z; [lia|reflexivity]. }
  apply FIVE in PP1.
  assert (V1E : (match s with GPS => true | GLO => channel s fcns o1 <=? MT1012_GLO_MAX_FCN end = true)%Z).
  { destruct s; [reflexivity|]. specialize (Hf eq_refl). apply Z.leb_le. unfold MT1012_GLO_MAX_FCN. lia. }
  assert (PRN : negb (n =? CP_INVALID)%Z = true) by (apply negb_true_iff, Z.eqb_neq; unfold CP_INVALID; lia).
  set (v1 := negb (to_signed 20 ph1 =? CP_INVALID)%Z).
  set (cpv1 := if v1 then rx_cycles (freq_d s false (channel s fcns o1)) (rx_m s n A) (to_signed 20 ph1) else d0).
  assert (RX1 : exists r, freq_to_sbp num_of s false (o_sat o1) 0 (mkdfreq (rx_m s n A) cpv1 (cnr_value (o_cn0 o1)) (dofZ (from_lock_ind k1)) true v1 (negb (o_cn0 o1 =? 0)%Z) v1) = Some (opt_list r) /\
    leg_outcome code_of s false fcns o1 o1 r).
  { apply (freq_in code_of num_of NUM s fcns o1 Hsv false o1 _ _ _ _ P1' H1 EP1 PP1 LK1).
    - intros V. exists j1. unfold cpv1. rewrite V. unfold v1 in V. destruct (signed20 ph1 R1) as [[Q _]|[Q Q2]]; [rewrite Q, Z.eqb_refl in V; discriminate|]. rewrite Q.
      split; [intros W; apply Z1; exact W|]. split; [exact S1|exact LE1].
    - intros V W. unfold v1 in V. destruct (Z1 W) as [_ B]. rewrite (to_signed_id 20) in V by lia. apply negb_false_iff, Z.eqb_eq in V. unfold CP_INVALID in V. lia. }
  destruct RX1 as (r1 & ER1 & O1).
  assert (VAL : forall dp ph2 lk2 cn2, let w := mklraw (o_sat o1) (channel s fcns o1) n ph1 k1 A (o_cn0 o1) dp ph2 lk2 cn2 in
    sat_value s (wire_of w, 0%Z, 0%Z) = mkrxsat (o_sat o1) 0 0
      (mkdfreq (rx_m s n A) cpv1 (cnr_value (o_cn0 o1)) (dofZ (from_lock_ind k1)) true v1 (negb (o_cn0 o1 =? 0)%Z) v1)
      (mkdfreq (dadd (dmul c_0_02 (dofZ dp)) (rx_m s n A)) (rx_cycles (freq_d s true (channel s fcns o1)) (rx_m s n A) (to_signed 20 ph2)) (cnr_value cn2) (dofZ (from_lock_ind lk2))
         (negb (dp =? PR_L2_INVALID)%Z) (negb (to_signed 20 ph2 =? CP_INVALID)%Z) (negb (cn2 =? 0)%Z) (negb (to_signed 20 ph2 =? CP_INVALID)%Z))).
  { intros dp ph2 lk2 cn2 w. unfold w, sat_value, wire_of. cbn [w_sv w_fcn w_pr w_ph1 w_lock1 w_amb w_cn1 w_dpr w_ph2 w_lock2 w_cn2]. cbv zeta. rewrite PRN.
    assert (VV : (match s with GPS => true | GLO => (channel s fcns o1 <=? MT1012_GLO_MAX_FCN)%Z end && negb (to_signed 20 ph1 =? CP_INVALID)%Z)%bool = v1).
    { unfold v1. destruct s; [reflexivity|]. rewrite V1E. reflexivity. }
    rewrite VV. reflexivity. }
  assert (RK : forall dp ph2 lk2 cn2, (-8192 <= dp < 8192)%Z -> (0 <= lk2 < 2 ^ 7)%Z -> byte cn2 -> raw_ok s (mklraw (o_sat o1) (channel s fcns o1) n ph1 k1 A (o_cn0 o1) dp ph2 lk2 cn2)).
  { intros dp ph2 lk2 cn2 D K C. unfold raw_ok, byte in *. cbn [w_sv w_fcn w_pr w_ph1 w_lock1 w_amb w_cn1 w_dpr w_ph2 w_lock2 w_cn2].
    destruct s; cbn [amb_width channel] in *; [|specialize (Hf eq_refl)]; repeat split; lia. }
  unfold sat_to_sbp, sat_to_sbp_b. change (freq_to_sbp_b num_of (fun _ => d0)) with (freq_to_sbp num_of).
  destruct oo2 as [o2|].
  - destruct EO as [[C1 C2] PW2]. pose proof H2 as (P20 & P21 & _ & _ & BC2 & BL2 & BF2 & FL2). destruct (usable_flags o2 H2) as [HC2 HU2].
    destruct (phase_out s fcns o1 Hf H1 A n HA HA2 Hn Hc true o2 H2 PW2) as (ph2 & E2 & R2 & I2 & T2). rewrite E2.
    destruct (lock_out (o_lock o2) BL2) as (k2 & EK2 & RK2 & LK2). rewrite (LF o2 k2 EK2), (CF o2 BC2).
    assert (QV2 : qv_pr (freq_data o2) = true) by exact HC2. rewrite QV2. change (q_pr (freq_data o2)) with (metres (o_P o2)).
    assert (AL : (A * unit20 s <= 20 * o_P o2)%Z).
    { assert (A <= 20 * o_P o1 / unit20 s)%Z by (apply Z.div_le_lower_bound; lia). clear - H C2 UB. nia. }
    destruct (calc_spec s A (o_P o2)) as (n2 & EN2 & Hn2 & Hc2); [destruct s; lia|lia|split; [lia|clear - HA2 C1; destruct s; cbn [unit20] in *; lia]|].
    assert (PR2 : pr_d wild s A (metres (o_P o2)) = n2) by (unfold pr_d; unfold calc_d in EN2; rewrite EN2; reflexivity). rewrite PR2.
    rewrite !to_signed_id by (destruct s; lia).
    assert (D14 : (-8191 <= n2 - n <= 8191)%Z) by (clear - Hc Hc2 C1; lia).
    eexists. split; [reflexivity|]. split; [apply RK; [lia|exact RK2|exact BC2]|]. rewrite VAL. cbn [x_sv x_c1 x_c2 x_l1 x_l2]. rewrite ER1.
    assert (NI : negb (n2 - n =? PR_L2_INVALID)%Z = true) by (apply negb_true_iff, Z.eqb_neq; unfold PR_L2_INVALID; lia). rewrite NI.
    destruct (usable_obs o2) eqn:U2.
    + destruct (T2 eq_refl) as (j2 & Z2 & S2 & LE2).
      assert (AB2 := rx2_ab s n A (n2 - n) A2 N2 D14). replace (n + (n2 - n))%Z with n2 in AB2 by ring.
      destruct (P_back s _ n2 A (o_P o2) A2 ltac:(destruct s; lia) ltac:(lia) AB2 Hc2) as (P2' & EP2 & PP2). apply FIVE in PP2.
      destruct (freq_in code_of num_of NUM s fcns o1 Hsv true o2 (dadd (dmul c_0_02 (dofZ (n2 - n))) (rx_m s n A)) (rx_cycles (freq_d s true (channel s fcns o1)) (rx_m s n A) (to_signed 20 ph2)) k2
        (negb (to_signed 20 ph2 =? CP_INVALID)%Z) P2' H2 EP2 PP2 LK2) as (r2 & ER2 & O2).
      * intros V. exists j2. destruct (signed20 ph2 R2) as [[Q _]|[Q Q2]]; [rewrite Q, Z.eqb_refl in V; discriminate|]. rewrite Q.
        split; [intros W; apply Z2; exact W|]. split; [exact S2|exact LE2].
      * intros V W. destruct (Z2 W) as [_ B]. rewrite (to_signed_id 20) in V by lia. apply negb_false_iff, Z.eqb_eq in V. unfold CP_INVALID in V. lia.
      * rewrite ER2. exists (r1, r2). split; [reflexivity|]. unfold entry_outcome. cbn [fst snd]. rewrite U2. split; [exact O1|exact O2].
    + rewrite (I2 eq_refl). change (to_signed 20 CP_INVALID) with CP_INVALID. rewrite Z.eqb_refl. cbn [negb].
      exists (r1, None). split; [reflexivity|]. unfold entry_outcome. cbn [fst snd]. rewrite U2. split; [exact O1|reflexivity].
  - assert (E2 : phase_d (freq_d s true (channel s fcns o1)) (l1_prc s A n) no_dfreq = Some CP_INVALID) by reflexivity. rewrite E2.
    assert (LK0 : lockf_d no_dfreq = Some 0%Z) by reflexivity. assert (CN0 : cnr_d no_dfreq = Some 0%Z) by (vm_compute; reflexivity). rewrite LK0, CN0.
    assert (Q0 : qv_pr no_dfreq = false) by reflexivity. rewrite Q0.
    eexists. split; [reflexivity|]. split; [apply RK; [unfold PR_L2_INVALID; lia|lia|unfold byte; lia]|]. rewrite VAL. cbn [x_sv x_c1 x_c2 x_l1 x_l2]. rewrite ER1.
    exists (r1, None). split; [reflexivity|]. unfold entry_outcome. cbn [fst snd]. split; [exact O1|reflexivity].
Qed.
End Trip.
