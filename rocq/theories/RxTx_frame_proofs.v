(** Proofs for C82: the frames sbp2rtcm sends for an epoch, as rtcm3tosbp receives them. *)
From Coq Require Import Permutation.
From Verif Require Import Base Bitstring Bits_model Bits_proofs Bitstream_model Double_model RtcmFraming_model RtcmFraming_spec Time_model Time_proofs TimeTruth_model Properties_time RtcmMsm_model RtcmMsm_spec RtcmMsm_proofs Signals_model Signals_proofs
  Sbp2Rtcm_model Sbp2Rtcm_spec Sbp2Rtcm_proofs Sbp2Msm_model Sbp2Msm_spec Sbp2Msm_proofs Sbp2Msm_epoch_proofs MsmVal_model MsmVal_spec MsmVal_epoch_proofs RtcmFrameOut_model RtcmFrameOut_proofs
  Properties_sbp2rtcm Properties_msmval Tunnel_model Conv_model StaConv_spec Conv_epoch_proofs Options_model ObsBuffer_model ObsBuffer_spec ObsExcl_spec Rx_model Rx_spec Rx_proofs RxTx_model RxTx_spec RxTx_proofs.
Local Open Scope Z_scope.

Lemma somes_app a b : somes (a ++ b) = somes a ++ somes b.
Proof. apply flat_map_app. Qed.
Lemma somes_len l : len (somes l) <= len l.
Proof. induction l as [|[o|] l IH]; cbn [somes flat_map]; [reflexivity| |]; fold (somes l); cbn [app]; rewrite !len_cons; lia. Qed.
Lemma somes_none {A} (l : list A) : somes (List.map (fun _ => None) l) = [].
Proof. induction l as [|a l IH]; [reflexivity|exact IH]. Qed.

(** the multiple message bits *)
Fixpoint mbits (ms : list omsg) : Prop := match ms with [] => True | m :: ms => mh_multiple (om_hdr m) = (match ms with [] => 0 | _ => 1 end) /\ mbits ms end.
Lemma mbits_of ms : (forall i m, nth_error ms i = Some m -> mh_multiple (om_hdr m) = if (Datatypes.S i =? length ms)%nat then 0 else 1) -> mbits ms.
Proof.
  induction ms as [|m ms IH]; intros H; [exact I|]. split; [rewrite (H 0%nat m eq_refl); destruct ms; reflexivity|]. apply IH. intros i m' E. exact (H (Datatypes.S i) m' E).
Qed.

(** the observations of the constellations present are all the observations *)
Lemma flat_present code_of os : Permutation (flat_map (fun c => obs_of code_of c os) (present code_of os)) (flat_map (fun c => obs_of code_of c os) [cGPS; cSBAS; cGLO; cBDS; cQZS; cGAL]).
Proof.
  unfold present. generalize [cGPS; cSBAS; cGLO; cBDS; cQZS; cGAL] as cs. induction cs as [|c cs IH]; [constructor|]. cbn [filter flat_map].
  destruct (len (obs_of code_of c os) =? 0) eqn:E; cbn [negb flat_map].
  - apply Z.eqb_eq in E. destruct (obs_of code_of c os) as [|o l]; [exact IH|]. rewrite len_cons in E. pose proof (len_nonneg l). lia.
  - apply Permutation_app_head. exact IH.
Qed.
Lemma flat_insert {A} (o : A) (f : RtcmMsm_model.cons -> list A) c : forall cs, NoDup cs -> In c cs ->
  Permutation (flat_map (fun c' => if cons_eqb c c' then o :: f c' else f c') cs) (o :: flat_map f cs).
Proof.
  assert (NO : forall cs, ~ In c cs -> flat_map (fun c' => if cons_eqb c c' then o :: f c' else f c') cs = flat_map f cs).
  { induction cs as [|d cs IH]; intros N; [reflexivity|]. cbn [flat_map]. rewrite IH by (intros H; apply N; right; exact H).
    destruct (cons_eqb c d) eqn:E; [|reflexivity]. apply cons_eqb_spec in E. subst d. exfalso. apply N. left. reflexivity. }
  induction cs as [|d cs IH]; intros ND I0; [destruct I0|]. inversion ND as [|? ? NI ND']; subst. destruct I0 as [-> |I]; cbn [flat_map].
  - replace (cons_eqb c c) with true by (symmetry; apply cons_eqb_spec; reflexivity). rewrite NO by exact NI. apply Permutation_refl.
  - destruct (cons_eqb c d) eqn:E; [apply cons_eqb_spec in E; subst d; contradiction|]. eapply perm_trans; [apply Permutation_app_head; apply IH; assumption|]. apply Permutation_sym. apply Permutation_middle.
Qed.
Lemma obs_all code_of os : Forall (fun o => exists c i j, c <> cSBAS /\ placed code_of c o i j) os -> Permutation (flat_map (fun c => obs_of code_of c os) [cGPS; cSBAS; cGLO; cBDS; cQZS; cGAL]) os.
Proof.
  set (cs := [cGPS; cSBAS; cGLO; cBDS; cQZS; cGAL]).
  assert (ND : NoDup cs) by (unfold cs; repeat (constructor; [cbn; intuition discriminate|]); constructor).
  induction os as [|o os IH]; intros F; [constructor|]. inversion F as [|? ? (c & i & j & NS & P & SP & _) F']; subst. specialize (IH F').
  assert (NI : c <> cINVALID) by (eapply cons_of_valid; exact P). assert (IC : In c cs) by (unfold cs; destruct c; cbn; tauto).
  pose proof (flat_insert o (fun c' => obs_of code_of c' os) c cs ND IC) as Q.
  eapply perm_trans; [|constructor; exact IH]. eapply perm_trans; [|exact Q]. clear Q IC ND IH. clearbody cs. induction cs as [|d cs IHc]; [constructor|]. cbn [flat_map]. apply Permutation_app; [|exact IHc].
  unfold obs_of. cbn [filter]. unfold sig_of in *. rewrite P. apply Permutation_refl.
Qed.

Section Epoch.
Variables (carrier num_of : code -> Z) (code_of : Z -> code) (masked : RtcmMsm_model.cons -> bool) (utc_offset : gtime -> Z).
Variables (tx map : list Z) (cfg : ocfg) (leap : Z) (e : Sbp2Rtcm_model.epoch).
Hypothesis CAR : carriers_ok carrier.
Hypothesis NUM : forall k, code_of (num_of k) = k.
Hypothesis TX : fcn_map_ok tx.
Hypothesis MAP : fcn_map_ok map.
Hypothesis AG : maps_agree tx map.
Hypothesis TY : c_type cfg = 4 \/ c_type cfg = 5.
Hypothesis LK : c_leap cfg = Some leap.
Hypothesis LR : -128 <= leap <= 127.
Hypothesis TOW : 0 <= oh_tow (e_hdr e) < 604800000.
Hypothesis OK : epoch_ok code_of (e_obs e).
Hypothesis RG : Forall MsmVal_spec.obs_in_range (e_obs e).
Notation x := (epoch_ms e).
Notation stn := (e_sender e mod 4096).
Notation glo := (has_glo code_of (e_obs e)).
Notation in_step := (in_step utc_offset leap glo x).

(** the header time, resolved by the receiver *)
Lemma header_time c h ref : c <> cQZS -> c <> cSBAS -> c <> cINVALID -> (c = cGLO -> glo = true) -> header_of cfg e c h -> in_step ref ->
  hdr_time utc_offset (mh_num (decoded_hdr h)) (mh_tow (decoded_hdr h)) x ref.
Proof.
  intros N1 N2 N3 NG (HN & _ & _ & _ & _ & _ & _ & _ & HT) (G & HW & HG). unfold hdr_time. change (mh_num (decoded_hdr h)) with (mh_num h). rewrite HN, (msg_num_cons c (c_type cfg) TY N3).
  assert (XM : x mod 604800000 = oh_tow (e_hdr e)) by (unfold epoch_ms, WEEK; rewrite Z.add_comm, Z.mul_comm, Z.mod_add by discriminate; apply Z.mod_small; exact TOW).
  assert (MT : mh_tow (decoded_hdr h) = if cons_eqb c cGLO then mh_tow h mod Time_model.DAY_MS else mh_tow h).
  { unfold decoded_hdr. cbn [mh_tow]. rewrite HN, (msg_num_cons c (c_type cfg) TY N3). reflexivity. }
  rewrite MT. unfold WEEK in *. destruct c; try contradiction; cbn [cons_eqb].
  - rewrite HT. split; [exact TOW|]. split; [exact XM|exact HW].
  - specialize (HG (NG eq_refl)). destruct HG as [LE PL]. destruct G as (G1 & G2 & G3).
    rewrite LK in HT. rewrite (glo_tow_spec (oh_tow (e_hdr e)) leap TOW) in HT by (rewrite <- LE; exact G3). injection HT as HT. rewrite <- HT.
    rewrite mod_week_day. split; [|exact PL].
    unfold plausible in PL. unfold instant_of_day. rewrite LE in *. unfold Time_model.DAY_MS, HOUR_MS. split; [pose proof (Z.mod_pos_bound (oh_tow (e_hdr e) + 3 * 3600000 - leap * 1000) 86400000 eq_refl) as MB; clear - MB; lia|]. split; [|clear - PL G3; lia].
    unfold epoch_ms, WEEK. rewrite Zminus_mod_idemp_r.
    change (3 * 3600000) with 10800000.
    replace (604800000 * oh_wn (e_hdr e) + oh_tow (e_hdr e) - leap * 1000 + 10800000 - (oh_tow (e_hdr e) + 10800000 - leap * 1000)) with (7 * oh_wn (e_hdr e) * 86400000) by ring. apply Z.mod_mul. discriminate.
  - destruct (gps_tow_bds _ TOW) as [R2 E2]. rewrite HT. split; [exact R2|]. 
    assert (Q : (gps_tow_to_beidou_tow (oh_tow (e_hdr e)) + 14000) mod 604800000 = oh_tow (e_hdr e)).
    { destruct (C19_bds_gps_inverse (oh_tow (e_hdr e)) TOW) as [_ I]. destruct (bds_tow _ R2) as [_ B]. rewrite I in B. symmetry. exact B. }
    rewrite Q. split; [exact TOW|]. split; [exact XM|exact HW].
  - rewrite HT. split; [exact TOW|]. split; [exact XM|exact HW].
Qed.

(** the frame of one message and what it carries *)
Definition good_frame (c : RtcmMsm_model.cons) (m : omsg) (f : list Z) : Prop :=
  out_frame carrier code_of tx cfg m = Ok f /\ valid_frame f /\ header_of cfg e c (om_hdr m) /\
  exists dm ord opts, bytes (payload_of f) /\ run_dec (decode_msm_d (c_type cfg)) (payload_of f) = Ok dm /\ dm_hdr dm = decoded_hdr (trim (om_hdr m)) /\
    Permutation ord (obs_of code_of c (e_obs e)) /\ Forall2 (outcome carrier code_of (c_type cfg) tx map masked (e_obs e)) ord opts /\
    to_sbp carrier num_of (mkrcfg masked map) dm = Some (somes opts).
Lemma good_frames : exists ms, buffer_to_msm code_of cfg e = Some ms /\ mbits ms /\ Forall2 (fun c m => exists f, good_frame c m f) (present code_of (e_obs e)) ms.
Proof.
  destruct (obs_to_msm_full carrier code_of num_of tx (mkrcfg masked map) cfg e leap CAR NUM TX MAP AG TY LK LR TOW OK RG) as (ms & EM & F).
  exists ms. split; [exact EM|]. split; [apply mbits_of; exact (C29_multiple_bit code_of cfg e ms EM)|]. eapply Forall2_weak; [|exact F]. clear F EM ms.
  intros c m ((HD & _) & _ & dm & V & H).
  destruct (H (repeat 0 1020)) as (b & n & dm' & EN & N1 & N2 & LB & BB & DE & DH & REST); [apply Forall_forall; intros y Hy; apply repeat_spec in Hy; subst y; split; [discriminate|reflexivity]|discriminate|].
  assert (LT : len (take n b) = n) by (rewrite len_take, LB; change (len (repeat 0 1020)) with 1020; lia).
  destruct (encode_frame_valid (fun _ => (b, n)) b (take n b)) as (f & b1 & b2 & cc & EF & VF & SH & LC); [rewrite LT; reflexivity|rewrite LB; reflexivity|exact BB|rewrite LT; reflexivity|rewrite LT; lia|].
  exists f. assert (LF : len f = n + 6) by (rewrite SH, !len_cons, len_app, LT, LC; ring).
  assert (PF : payload_of f = take n b).
  { unfold payload_of, sub. rewrite LF. replace (n + 6 - 6) with n by ring. rewrite SH. change (drop 3 (211 :: b1 :: b2 :: take n b ++ cc)) with (take n b ++ cc). rewrite <- LT at 1. apply take_app_exact. }
  split; [|split; [exact VF|split; [exact HD|]]].
  - unfold out_frame. rewrite V. change (drop 3 (repeat 0 (Z.to_nat FRAME_ARRAY_LEN))) with (repeat 0 1020%nat). rewrite EN. cbn [bind]. exact EF.
  - destruct REST as (ord & opts & P & FO & TS). exists dm', ord, opts. rewrite PF. split; [apply Forall_take; exact BB|]. auto.
Qed.

(** the messages as the receiver meets them *)
Lemma good_parts : forall cs ms, Forall2 (fun c m => exists f, good_frame c m f) cs ms -> mbits ms -> (forall c, In c cs -> c <> cSBAS /\ c <> cINVALID /\ (c = cGLO -> glo = true)) ->
  exists fs, Forall2 (fun m f => out_frame carrier code_of tx cfg m = Ok f) ms fs /\ Forall valid_frame fs /\ length fs = length cs /\
  forall refs, Forall in_step refs -> length refs = length fs -> exists (l : list part) ord opts,
    Forall (fun '(c, q, more, os) => sent carrier num_of masked utc_offset x stn (c_type cfg) map c q more os) l /\ (l = [] \/ chained l) /\ List.map (fun '(c, _, _, _) => c) l = cs /\
    arrivals l = combine (List.map Some refs) (List.map payload_of fs) /\ all_kept l = somes opts /\
    Permutation ord (flat_map (fun c => obs_of code_of c (e_obs e)) cs) /\ Forall2 (relayed carrier code_of (c_type cfg) tx map masked (e_obs e)) ord opts.
Proof.
  induction 1 as [|c m cs ms (f & EF & VF & HD & dm & ord & opts & B & D & DH & PE & FO & TS) F IH]; intros MB NC.
  - exists []. split; [constructor|]. split; [constructor|]. split; [reflexivity|]. intros refs _ LE. destruct refs; [|discriminate LE]. exists [], [], []. repeat split; try constructor; try reflexivity.
  - destruct MB as [M1 MB]. destruct (NC c (or_introl eq_refl)) as (NS & NI & NG).
    destruct (IH MB) as (fs & A & V & L & R); [intros c' I; apply NC; right; exact I|].
    exists (f :: fs). split; [constructor; assumption|]. split; [constructor; assumption|]. split; [cbn [length]; congruence|].
    intros [|ref refs] FR LE; [discriminate LE|]. inversion FR as [|? ? SR FR']; subst. cbn [length] in LE. destruct (R refs FR' ltac:(congruence)) as (l & ord' & opts' & S & CH & CS & AR & AK & PE' & FO').
    set (more := match ms with [] => false | _ => true end).
    set (opts1 := if cons_eqb c cQZS then List.map (fun _ => None) ord else opts).
    exists ((c, (ref, payload_of f), more, somes opts) :: l), (ord ++ ord'), (opts1 ++ opts').
    split; [constructor; [|exact S]|].
    { exists dm. cbn [fst snd]. split; [exact B|]. split; [exact (proj1 SR)|]. split; [exact D|]. rewrite DH.
      pose proof HD as HD'. destruct HD' as (H1 & H2 & _). split; [exact H1|]. split; [exact H2|]. split.
      { change (mh_multiple (decoded_hdr (trim (om_hdr m)))) with (mh_multiple (om_hdr m)). rewrite M1. unfold more. destruct ms; reflexivity. }
      split; [|exact TS]. intros NQ. apply (header_time c (trim (om_hdr m)) ref); [exact NQ|exact NS|exact NI|exact NG|exact HD|exact SR]. }
    split.
    { assert (LM : length cs = length ms) by (clear - F; induction F; cbn [length]; congruence). pose proof (f_equal (@length _) CS) as LC. rewrite map_length in LC. rewrite LM in LC.
      right. cbn [chained]. unfold more. destruct l as [|q l]; destruct ms as [|m' ms]; cbn [length] in LC; try discriminate LC; [reflexivity|]. split; [reflexivity|]. destruct CH as [CH|CH]; [discriminate CH|exact CH]. }
    split; [cbn [List.map]; congruence|]. split; [cbn [arrivals List.map combine fst snd]; fold (arrivals l); congruence|]. split.
    { cbn [all_kept flat_map]. fold (all_kept l). rewrite somes_app, AK. f_equal. unfold kept, opts1. destruct (cons_eqb c cQZS); [symmetry; apply somes_none|reflexivity]. }
    split; [cbn [flat_map]; apply Permutation_app; assumption|]. apply Forall2_app; [|exact FO'].
    assert (OC : forall o, In o ord -> of_cons code_of c o).
    { intros o Io. apply (Permutation_in o PE) in Io. apply obs_of_in in Io. exact (proj2 Io). }
    unfold opts1. destruct (cons_eqb c cQZS) eqn:EQ.
    + apply cons_eqb_spec in EQ. subst c. clear - OC. induction ord as [|o ord IH]; constructor; [|apply IH; intros o' I; apply OC; right; exact I].
      split; [reflexivity|]. intros N. exfalso. apply N. apply OC. left. reflexivity.
    + assert (NQ : c <> cQZS) by (intros ->; discriminate EQ). clear - OC FO NQ. induction FO as [|o r ord opts P FO IH]; constructor; [|apply IH; intros o' I; apply OC; right; exact I].
      split; [|intros _; exact P]. intros Q. exfalso. apply NQ. pose proof (OC o (or_introl eq_refl)) as Q2. unfold of_cons in *. congruence.
Qed.
End Epoch.
