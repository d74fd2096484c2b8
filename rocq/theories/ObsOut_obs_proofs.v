(** Proofs for C85: the observations. *)
From Flocq Require Import IEEE754.Binary IEEE754.Bits.
From Verif Require Import Base Bits_model Bits_proofs Bitstream_model Time_model RtcmLegacy_model RtcmMsm_model RtcmMsm_spec RtcmMsm_proofs Signals_model Double_model Sbp2Rtcm_model Sbp2Msm_model MsmVal_model MsmVal_spec Options_model LegVal_model LegRx_model
  ObsBuffer_model ObsBuffer_spec RxTx_proofs Rx_model ObsOut_spec ObsOut_proofs.
Local Open Scope Z_scope.

Lemma conv_range lo hi z v : conv lo hi z = Some v -> lo <= v <= hi.
Proof. unfold conv. destruct z as [z|]; [|discriminate]. destruct (_ && _) eqn:C; [|discriminate]. intros E. injection E as <-. apply andb_prop in C. destruct C as [A B]. apply Z.leb_le in A, B. lia. Qed.
Lemma split_range lo hi x i f : split256 lo hi x = Some (i, f) -> lo <= i <= hi + 1 /\ 0 <= f < 256.
Proof.
  unfold split256. destruct (conv lo hi _) as [i0|] eqn:C; [|discriminate]. apply conv_range in C. destruct (conv 0 65535 _) as [f0|]; [|discriminate].
  destruct (f0 =? 256); intros E; injection E as <- <-; [lia|]. pose proof (Z.mod_pos_bound f0 256 ltac:(lia)). lia.
Qed.
Lemma lock_index_range n : forall ms i t, i <= lock_index ms n i t <= i + Z.of_nat n.
Proof. induction n as [|n IH]; intros ms i t; cbn [lock_index]; [lia|]. destruct (dltb _ _); [lia|]. specialize (IH (2 * ms) (i + 1) t). lia. Qed.
Lemma lock_range (b : bool) t : 0 <= (if b then encode_lock_d t else 0) <= 15.
Proof. destruct b; [|lia]. unfold encode_lock_d. pose proof (lock_index_range 15 32 0 t). change (Z.of_nat 15) with 15 in H. lia. Qed.
Lemma signed_range16 v : - 2 ^ 15 <= to_signed 16 v < 2 ^ 15.
Proof.
  unfold to_signed. pose proof (Z.mod_pos_bound v (2 ^ 16) ltac:(lia)) as M. change (16 - 1) with 15. change (2 ^ 16) with 65536 in *. change (2 ^ 15) with 32768 in *.
  destruct (Z.ltb_spec (v mod 65536) 32768); lia.
Qed.
Lemma code_cons c id : get_msm_code c id = CODE_INVALID \/ cons_of (get_msm_code c id) = Some c.
Proof.
  assert (D : get_msm_code c id = CODE_INVALID \/ get_msm_code c id <> CODE_INVALID) by (destruct (get_msm_code c id); (left; reflexivity) || (right; discriminate)).
  destruct D as [D|D]; [left; exact D|right]. pose proof (Signals_proofs.code_range c id D) as R.
  assert (A : forallb (fun c => forallb (fun i => code_eqb (get_msm_code c (Z.of_nat i)) CODE_INVALID || match cons_of (get_msm_code c (Z.of_nat i)) with Some c' => cons_eqb c' c | None => false end) (seq 1 32)) [cGPS; cSBAS; cGLO; cBDS; cQZS; cGAL; cINVALID] = true) by (vm_compute; reflexivity).
  rewrite forallb_forall in A. specialize (A c ltac:(destruct c; cbn; tauto)). rewrite forallb_forall in A. specialize (A (Z.to_nat id) ltac:(apply in_seq; lia)). rewrite Z2Nat.id in A by lia.
  apply orb_prop in A. destruct A as [A|A].
  - unfold code_eqb in A. destruct (code_eq_dec _ _) as [E|]; [contradiction|discriminate].
  - destruct (cons_of _) as [c'|]; [|discriminate]. destruct c', c; cbn in A; try discriminate; reflexivity.
Qed.
Lemma prn_range c p : prn_valid c p = true -> fst (sat_numbers c) <= p <= snd (sat_numbers c).
Proof. unfold prn_valid. intros E. apply andb_prop in E. destruct E as [E E3]. apply andb_prop in E. destruct E as [E1 E2]. apply Z.leb_le in E2. apply Z.ltb_lt in E3. destruct c; cbn in E1, E2, E3 |- *; try discriminate; lia. Qed.

Section Obs.
Variables (carrier num_of : code -> Z) (masked : RtcmMsm_model.cons -> bool).
Notation obs_ok := (obs_ok num_of masked).

(** everything but the satellite and the signal *)
Lemma cell_ok sb cb pb f k prn g o : cell_obs_b num_of sb cb pb f k prn g = Some o ->
  o_sat o = prn /\ o_code o = num_of k /\ ((exists c, cons_of k = Some c /\ discarded_signal k = false /\ fst (sat_numbers c) <= prn <= snd (sat_numbers c) /\ (masked c = true -> In k legacy_signals)) -> obs_ok o).
Proof.
  unfold cell_obs_b. cbv zeta. set (fv := match f with Some _ => true | None => false end). set (fr := match f with Some f => f | None => d0 end).
  destruct (conv 0 (2 ^ 32 - 1) _) as [p|] eqn:CP; [|discriminate]. apply conv_range in CP.
  set (vc := dv_cp g && fv). set (vd := dv_dop g && fv).
  destruct (if vc then _ else _) as [[li lf]|] eqn:CC; [|discriminate]. destruct (if dv_cnr g then _ else _) as [cn|] eqn:CN; [|discriminate]. destruct (if vd then _ else _) as [[di df]|] eqn:CD; [|discriminate].
  destruct (Z.ltb_spec (2 ^ 31 - 1) li) as [|LI]; [discriminate|].
  match goal with |- context[F_CODE + ?a + ?b] => set (fl := F_CODE + a + b) end.
  assert (FL : fl = (match vc, d_hca g, vd with false, _, false => 1 | false, _, true => 9 | true, true, false => 3 | true, true, true => 11 | true, false, false => 7 | true, false, true => 15 end)).
  { unfold fl, F_CODE, F_PHASE, F_HALF, F_DOPPLER. destruct vc, (d_hca g), vd; reflexivity. }
  clearbody fl. set (td := to_signed 16 di). set (lk := if dv_lock g then _ else _).
  intros E. injection E as <-. split; [reflexivity|]. split; [reflexivity|]. intros (c & K1 & K2 & K3 & K4).
  assert (RC : - 2 ^ 31 <= li /\ 0 <= lf < 256). { destruct vc; [apply split_range in CC; lia|injection CC as <- <-; lia]. }
  assert (RN : 0 <= cn < 256). { destruct (dv_cnr g); [apply conv_range in CN; lia|injection CN as <-; lia]. }
  assert (RD : 0 <= df < 256). { destruct vd; [apply split_range in CD; lia|injection CD as <- <-; lia]. }
  unfold ObsOut_spec.obs_ok. cbn [o_P o_Li o_Lf o_Di o_Df o_cn0 o_lock o_flags o_sat o_code]. pose proof (signed_range16 di) as SR. pose proof (lock_range (dv_lock g) (d_lock g)) as LR.
  rewrite FL. split; [lia|]. split; [lia|]. split; [lia|]. split; [exact SR|]. split; [exact RD|]. split; [exact RN|]. split; [exact LR|].
  split; [destruct vc, (d_hca g), vd; lia|]. split; [destruct vc, (d_hca g), vd; reflexivity|]. split.
  { intros B. destruct vc; [exfalso; destruct (d_hca g), vd; discriminate B|]. injection CC as <- <-. split; [reflexivity|]. split; [reflexivity|]. destruct vd; reflexivity. }
  split.
  { intros B. destruct vd; [exfalso; destruct vc, (d_hca g); discriminate B|]. injection CD as <- <-. split; reflexivity. }
  exists k, c. split; [reflexivity|]. split; [exact K1|]. split; [exact K2|]. split; [exact K3|exact K4].
Qed.
Lemma msm_cell_ok bias map h sat sig s g o : cell_to_sbp_b carrier num_of bias (mkrcfg masked map) h sat sig s g = Some (Some o) -> obs_ok o.
Proof.
  unfold cell_to_sbp_b. destruct (msm_signal_to_code h sig) as [k|] eqn:MC; [|discriminate]. destruct (msm_sat_to_prn h sat) as [prn|] eqn:MP; [|discriminate].
  destruct (code_eqb k CODE_INVALID) eqn:KI; cbn [orb]; [discriminate|]. destruct (Z.eqb_spec prn PRN_INVALID) as [|PI]; [discriminate|]. destruct (cons_of k) as [c|] eqn:CO; [|discriminate].
  destruct (rc_masked _ c) eqn:MK; cbn [orb]; [discriminate|]. cbn [rc_masked] in MK. destruct (unsupported_signal k) eqn:US; cbn [orb]; [discriminate|]. destruct (negb (dv_pr g)); [discriminate|].
  destruct (msm_get_glo_fcn _ _ _ _) as [[b fcn]|]; [|discriminate]. set (fcn' := if cons_eqb _ _ then _ else _). destruct (bias k fcn') as [[sb cb] pb]. destruct (cell_obs_b _ _ _ _ _ _ _ _) as [o'|] eqn:CE; [|discriminate].
  intros E. injection E as ->. apply cell_ok in CE. destruct CE as (_ & _ & CE). apply CE. exists c. split; [exact CO|]. split; [exact US|]. split; [|intros M; congruence].
  unfold msm_signal_to_code in MC. destruct (find_nth_mask_value 32 _ _) as [p|]; [|discriminate]. injection MC as MC.
  assert (CC : c = to_constellation (mh_num h)).
  { destruct (code_cons (to_constellation (mh_num h)) (p + 1)) as [D|D]; rewrite MC in D; [subst k; rewrite D in KI; discriminate KI|congruence]. }
  unfold msm_sat_to_prn in MP. rewrite <- CC in MP. destruct (cons_eqb c cINVALID); [injection MP as <-; exfalso; apply PI; reflexivity|].
  destruct (find_nth_mask_value 64 _ _) as [q|]; [|discriminate]. injection MP as MP. destruct (prn_valid c _) eqn:PV; [|exfalso; apply PI; symmetry; exact MP]. subst prn. apply prn_range. exact PV.
Qed.
Lemma all_some_in {A} (l : list (option A)) r : all_some l = Some r -> forall x, In x r -> In (Some x) l.
Proof.
  revert r. induction l as [|a l IH]; intros r E x Hx; cbn [all_some] in E; [injection E as <-; destruct Hx|]. destruct a as [a|]; [|discriminate]. destruct (all_some l) as [r'|]; [|discriminate]. injection E as <-.
  destruct Hx as [->|Hx]; [left; reflexivity|right; eapply IH; eauto].
Qed.
Lemma mapi_in {A B} (f : Z -> A -> B) l : forall k y, In y (mapi k f l) -> exists i x, y = f i x.
Proof. induction l as [|a l IH]; intros k y Hy; cbn [mapi] in Hy; [destruct Hy|]. destruct Hy as [<-|Hy]; [exists k, a; reflexivity|eapply IH; exact Hy]. Qed.
Lemma msm_ok bias map m os : to_sbp_b carrier num_of bias (mkrcfg masked map) m = Some os -> Forall obs_ok os.
Proof.
  unfold to_sbp_b. cbv zeta. destruct (all_some _) as [l|] eqn:A; [|discriminate]. intros E. injection E as <-. apply Forall_forall. intros o Ho. apply in_flat_map in Ho. destruct Ho as (x & X1 & X2).
  destruct x as [o'|]; [|destruct X2]. destruct X2 as [<-|[]]. apply (all_some_in _ _ A) in X1. apply mapi_in in X1. destruct X1 as (i & cc & X1). eapply msm_cell_ok. symmetry. exact X1.
Qed.
Lemma freq_ok bias s second sv c q l : freq_to_sbp_b num_of bias s second sv c q = Some l -> Forall obs_ok l.
Proof.
  unfold freq_to_sbp_b. destruct (_ && _); [|intros E; injection E as <-; constructor]. destruct (sbp_sid s second sv c) as [[sat k]|] eqn:SS; [|intros E; injection E as <-; constructor].
  destruct (conv 0 (2 ^ 32 - 1) _) as [p|] eqn:CP; [|discriminate]. apply conv_range in CP. destruct (split256 _ _ _) as [[li lf]|] eqn:SP; [|discriminate]. apply split_range in SP. destruct (if qv_cnr q then _ else _) as [cn|] eqn:CN; [|discriminate].
  destruct (Z.ltb_spec (2 ^ 31 - 1) li) as [|LI]; [discriminate|]. intros E. injection E as <-. constructor; [|constructor].
  assert (RN : 0 <= cn < 256). { destruct (qv_cnr q); [apply conv_range in CN; lia|injection CN as <-; lia]. }
  unfold ObsOut_spec.obs_ok. cbn [o_P o_Li o_Lf o_Di o_Df o_cn0 o_lock o_flags o_sat o_code]. pose proof (lock_range (qv_lock q) (q_lock q)) as LR. change (F_CODE + F_PHASE + F_HALF) with 7.
  split; [lia|]. split; [lia|]. split; [lia|]. split; [lia|]. split; [lia|]. split; [exact RN|]. split; [exact LR|]. split; [lia|]. split; [reflexivity|]. split; [discriminate|]. split; [intros _; split; reflexivity|].
  unfold sbp_sid in SS. destruct s.
  - destruct ((1 <=? sv) && (sv <=? 32)) eqn:R1.
    + injection SS as <- <-. apply andb_prop in R1. destruct R1 as [R1 R2]. apply Z.leb_le in R1, R2. destruct second, (c =? 0); (eexists; exists cGPS; split; [reflexivity|]; split; [reflexivity|]; split; [reflexivity|]; split; [cbn; lia|intros _; cbn; tauto]).
    + destruct ((40 <=? sv) && (sv <=? 58) && negb second) eqn:R2; [|discriminate]. injection SS as <- <-. apply andb_prop in R2. destruct R2 as [R2 _]. apply andb_prop in R2. destruct R2 as [R2 R3]. apply Z.leb_le in R2, R3.
      exists SBAS_L1CA, cSBAS. split; [reflexivity|]. split; [reflexivity|]. split; [reflexivity|]. split; [cbn; lia|intros _; cbn; tauto].
  - destruct ((1 <=? sv) && (sv <=? 24)) eqn:R1; [|discriminate]. injection SS as <- <-. apply andb_prop in R1. destruct R1 as [R1 R2]. apply Z.leb_le in R1, R2.
    destruct second; (eexists; exists cGLO; split; [reflexivity|]; split; [reflexivity|]; split; [reflexivity|]; split; [cbn; lia|intros _; cbn; tauto]).
Qed.
Lemma cand_ok op s second sv c q l : cand num_of op s second sv c q = Some l -> Forall obs_ok (somes l).
Proof.
  unfold cand. destruct (freq_to_sbp_b _ _ _ _ _ _ _) as [r|] eqn:E; [|discriminate]. apply freq_ok in E. intros H. injection H as <-. destruct (_ && _); [|constructor]. destruct r as [|o r]; [constructor|]. inversion E; subst. constructor; [assumption|constructor].
Qed.
Lemma somes_app {A} (a b : list (option A)) : somes (a ++ b) = somes a ++ somes b. Proof. apply flat_map_app. Qed.
Lemma sat_ok op s x l : sat_cands num_of op s x = Some l -> Forall obs_ok (somes l).
Proof.
  unfold sat_cands. destruct (cand _ _ _ false _ _ _) as [a|] eqn:A; [|discriminate]. destruct (cand _ _ _ true _ _ _) as [b|] eqn:B; [|discriminate]. intros H. injection H as <-. rewrite somes_app. apply Forall_app. split; eapply cand_ok; eassumption.
Qed.
Lemma leg_ok op s l r : all_some (map (sat_cands num_of op s) l) = Some r -> Forall obs_ok (somes (concat r)).
Proof.
  intros E. apply Forall_forall. intros o Ho. unfold somes in Ho. apply in_flat_map in Ho. destruct Ho as (x & X1 & X2). apply in_concat in X1. destruct X1 as (l' & L1 & L2). apply (all_some_in _ _ E) in L1. apply in_map_iff in L1. destruct L1 as (y & Y & _).
  apply sat_ok in Y. rewrite Forall_forall in Y. apply Y. unfold somes. apply in_flat_map. exists x. split; assumption.
Qed.

(** *** the station number *)
Lemma u12 bs v r : get_u 12 bs = DOk v r -> 0 <= v < 4096.
Proof. intros E. apply get_u_inv in E. destruct E as (L & -> & _). pose proof (val_be_range (take 12 bs)) as V. assert (Q : len (take 12 bs) = 12) by (rewrite len_take; lia). rewrite Q in V. exact V. Qed.
Lemma run_inv {A} (d : dec A) p m : run_dec d p = Ok m -> exists bs r, d bs = DOk m r.
Proof. unfold run_dec. destruct (d _) as [m' r| | |] eqn:E; try discriminate. intros H. injection H as ->. eexists. exists r. exact E. Qed.
Lemma leg_stn1 s p m : run_dec (decode_leg1 s) p = Ok m -> 0 <= h_stn (rx_hdr m) < 4096.
Proof.
  intros E. apply run_inv in E. destruct E as (bs & r & E). unfold decode_leg1 in E. apply dbind_inv in E. destruct E as (num & r1 & _ & E). apply dbind_inv in E. destruct E as (stn & r2 & U & E). apply u12 in U.
  do 5 (apply dbind_inv in E; destruct E as (? & ? & _ & E)). destruct (negb _); [discriminate|]. destruct (_ <? _); [discriminate|]. apply dbind_inv in E. destruct E as (? & ? & _ & E). injection E as <- _. exact U.
Qed.
Lemma leg_stn s p m : run_dec (decode_leg s) p = Ok m -> 0 <= h_stn (rx_hdr m) < 4096.
Proof.
  intros E. apply run_inv in E. destruct E as (bs & r & E). unfold decode_leg in E. apply dbind_inv in E. destruct E as (num & r1 & _ & E). apply dbind_inv in E. destruct E as (stn & r2 & U & E). apply u12 in U.
  do 5 (apply dbind_inv in E; destruct E as (? & ? & _ & E)). destruct (negb _); [discriminate|]. destruct (_ <? _); [discriminate|]. apply dbind_inv in E. destruct E as (? & ? & _ & E). injection E as <- _. exact U.
Qed.
Lemma header_stn num bs h r : get_msm_header num bs = DOk h r -> 0 <= mh_stn h < 4096.
Proof.
  unfold get_msm_header. intros E. apply dbind_inv in E. destruct E as (stn & r2 & U & E). apply u12 in U. do 11 (apply dbind_inv in E; destruct E as (? & ? & _ & E)). injection E as <- _. exact U.
Qed.
Lemma msm_stn ty p m : run_dec (decode_msm_d ty) p = Ok m -> 0 <= mh_stn (dm_hdr m) < 4096.
Proof.
  intros E. apply run_inv in E. destruct E as (bs & r & E). unfold decode_msm_d in E. apply dbind_inv in E. destruct E as ([[h ss] gs] & r1 & D & E). injection E as <- _. cbn [msg_value dm_hdr].
  unfold decode_raw in D. destruct (negb (between 4 ty 7)); [discriminate|]. apply dbind_inv in D. destruct D as (num & r2 & _ & D). destruct (negb _); [discriminate|]. destruct (cons_eqb _ cINVALID); [discriminate|].
  apply dbind_inv in D. destruct D as (h' & r3 & H & D). apply header_stn in H. destruct (_ <? mh_tow h'); [discriminate|]. destruct (64 <? _); [discriminate|]. do 10 (apply dbind_inv in D; destruct D as (? & ? & _ & D)).
  destruct (32 <? _); [discriminate|]. injection D as <- _ _ _. exact H.
Qed.

(** *** the receiver *)
Variables (op : opts) (utc_offset : gtime -> Z) (consts : Z -> dbl).
Context {A O : Type}.
Variable rest : Z -> list Z -> rstate pobs (list Z * A) -> A * list O.
Lemma step_ok tin p (s s' : rstate pobs (list Z * A)) o : inv obs_ok s -> (forall ref, tin = Some ref -> wn ref <= 32767) -> rx_step carrier num_of op masked utc_offset consts rest tin p s = Some (s', o) -> inv obs_ok s' /\ Forall (output_ok obs_ok) o.
Proof.
  intros I T E. unfold rx_step in E. destruct (match tin with Some _ => _ | None => _ end); [discriminate|]. eapply decode_ok; [| |exact I|exact T|exact E].
  - intros m M. unfold legacy_dec, rx_leg in M. destruct (decode_any _) as [[sy d]|] eqn:DA; [|discriminate]. destruct (run_dec d p) as [x| | |] eqn:R; try discriminate. destruct (all_some _) as [cs|] eqn:AS; [|discriminate]. cbn [option_map] in M. injection M as <-. cbn [l_stn l_cands].
    split; [|eapply leg_ok; exact AS]. unfold decode_any in DA. destruct (_ =? 1002); [injection DA as <- <-; eapply leg_stn1; exact R|]. destruct (_ =? 1004); [injection DA as <- <-; eapply leg_stn; exact R|].
    destruct (_ =? 1010); [injection DA as <- <-; eapply leg_stn1; exact R|]. destruct (_ =? 1012); [injection DA as <- <-; eapply leg_stn; exact R|discriminate].
  - intros m M. unfold msm_dec, rx_msm in M. destruct (run_dec _ p) as [x| | |] eqn:R; try discriminate. destruct (to_sbp_b _ _ _ _ _) as [os|] eqn:TS; [|discriminate]. injection M as <-. cbn [m_stn m_cands]. split; [eapply msm_stn; exact R|eapply msm_ok; exact TS].
Qed.
Lemma run_ok l : (forall ref p, In (Some ref, p) l -> wn ref <= 32767) -> forall (s s' : rstate pobs (list Z * A)) o, inv obs_ok s -> rx_run carrier num_of op masked utc_offset consts rest l s = Some (s', o) -> inv obs_ok s' /\ Forall (output_ok obs_ok) o.
Proof.
  induction l as [|[tin p] l IH]; intros T s s' o I E; cbn [rx_run] in E; [injection E as <- <-; split; [exact I|constructor]|].
  destruct (rx_step _ _ _ _ _ _ _ _ _ _) as [[s1 o1]|] eqn:E1; [|discriminate]. destruct (rx_run _ _ _ _ _ _ _ _ _) as [[s2 o2]|] eqn:E2; [|discriminate]. injection E as <- <-.
  apply step_ok in E1; [|exact I|intros ref ->; apply (T ref p); left; reflexivity]. destruct E1 as [I1 O1]. apply IH in E2; [|intros ref q H; apply (T ref q); right; exact H|exact I1]. destruct E2 as [I2 O2]. split; [exact I2|apply Forall_app; split; assumption].
Qed.
Lemma init_ok a : inv obs_ok (rx_init (A := A) a).
Proof. split; [constructor|]. split; [right; split; reflexivity|]. split; [cbn; lia|]. split; [cbn; lia|]. unfold rx_init, r_init, T_UNKNOWN, WN_UNKNOWN. cbn [r_time wn]. lia. Qed.
End Obs.
