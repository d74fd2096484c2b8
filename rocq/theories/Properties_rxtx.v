(** C82: SBP observation epochs sent by sbp2rtcm and received by rtcm3tosbp: the same epochs come out, one for one. *)
From Coq Require Import Permutation.
From Verif Require Conv_model.
From Verif Require Import Base Bitstring Bits_model Bitstream_model RtcmFraming_model RtcmFraming_spec Properties_framing Time_model RtcmMsm_model RtcmMsm_spec Signals_model Double_model
  Sbp2Rtcm_model Sbp2Rtcm_spec Sbp2Msm_model Sbp2Msm_spec MsmVal_model MsmVal_spec MsmVal_epoch_proofs Sbp2Rtcm_proofs Properties_sbp2rtcm Properties_msmval RtcmFrameOut_model Tunnel_model StaConv_spec Conv_epoch_proofs Options_model
  ObsBuffer_model ObsBuffer_spec ObsExcl_spec ObsExcl_proofs Rx_model Rx_spec Rx_proofs RxTx_model RxTx_spec RxTx_proofs RxTx_frame_proofs Properties_rx.
Local Open Scope Z_scope.

Lemma combine_app {A B} : forall (l1 : list A) (r1 : list B) l2 r2, length l1 = length r1 -> combine (l1 ++ l2) (r1 ++ r2) = combine l1 r1 ++ combine l2 r2.
Proof. induction l1 as [|x l1 IH]; intros [|y r1] l2 r2 L; try discriminate L; [reflexivity|]. cbn [app combine]. rewrite IH; [reflexivity|]. injection L as L. exact L. Qed.

Section Sent.
Variables (carrier num_of : code -> Z) (code_of : Z -> code) (masked : RtcmMsm_model.cons -> bool) (utc_offset : gtime -> Z) (consts : Z -> dbl).
Context {A O : Type}.
Variable rest : Z -> list Z -> rstate pobs (list Z * A) -> A * list O.
Hypothesis CAR : carriers_ok carrier.
Hypothesis NUM : forall k, code_of (num_of k) = k.
Variables (tx map : list Z) (cfg : ocfg) (leap : Z).
Hypothesis TX : fcn_map_ok tx.
Hypothesis MAP : fcn_map_ok map.
Hypothesis AG : maps_agree tx map.
Hypothesis TY : c_type cfg = 4 \/ c_type cfg = 5.
Hypothesis LK : c_leap cfg = Some leap.
Hypothesis LR : -128 <= leap <= 127.
Notation rx_run := (rx_run carrier num_of zero_opts masked utc_offset consts rest).
Notation arrived := (arrived carrier code_of (c_type cfg) tx map masked).

Lemma total_all l : total_of l = len (all_kept l).
Proof. unfold total_of, all_kept. induction l as [|[[[c q] m] os] l IH]; [reflexivity|]. cbn [List.map fold_right flat_map]. rewrite len_app, IH. reflexivity. Qed.
Lemma one_epoch e : sendable code_of e ->
  exists fs, out_frames carrier code_of tx cfg e = Ok fs /\ Forall valid_frame fs /\ length fs = length (present code_of (e_obs e)) /\
  forall refs, Forall (in_step utc_offset leap (has_glo code_of (e_obs e)) (epoch_ms e)) refs -> length refs = length fs ->
  forall s : rstate pobs (list Z * A), fcns s = map -> r_buf s = [] -> oh_tow (e_hdr e) <> 0 \/ gps_time_valid (r_last_gps s) = true ->
  exists s' o, rx_run (combine (List.map Some refs) (List.map payload_of fs)) s = Some (s', o) /\ r_buf s' = [] /\ fcns s' = map /\ lasts_at (epoch_ms e) s' /\ arrived e (seen o).
Proof.
  intros (TOW & OK & RG & L & NQ). unfold WEEK in TOW.
  destruct (good_frames carrier num_of code_of masked tx map cfg leap e CAR NUM TX MAP AG TY LK LR TOW OK RG) as (ms & EM & MB & F).
  assert (NC : forall c, In c (present code_of (e_obs e)) -> c <> cSBAS /\ c <> cINVALID /\ (c = cGLO -> has_glo code_of (e_obs e) = true)).
  { intros c I. apply filter_In in I. destruct I as [I N]. split; [|split].
    - intros ->. rewrite (no_sbas code_of (e_obs e) (proj1 OK)) in N. discriminate N.
    - intros ->. cbn in I. intuition discriminate.
    - intros ->. exact N. }
  destruct (good_parts carrier num_of code_of masked utc_offset tx map cfg leap e TY LK TOW _ _ F MB NC) as (fs & OF & VF & LE & R).
  exists fs. split; [unfold out_frames; rewrite EM; apply all_ok_map; exact OF|]. split; [exact VF|]. split; [exact LE|]. intros refs ST LR' s FM B X0.
  destruct (R refs ST LR') as (l & ord & opts & SE & CH & CS & AR & AK & PE & FO).
  pose proof (obs_all code_of (e_obs e) (proj1 OK)) as OA. pose proof (flat_present code_of (e_obs e)) as FP.
  assert (PA : Permutation ord (e_obs e)) by (eapply perm_trans; [exact PE|]; eapply perm_trans; [exact FP|exact OA]).
  assert (XW : epoch_ms e / WEEK = oh_wn (e_hdr e) /\ epoch_ms e mod WEEK = oh_tow (e_hdr e)).
  { unfold epoch_ms, WEEK. split; [rewrite (Z.mul_comm 604800000), Z.div_add_l, Z.div_small; [apply Z.add_0_r|exact TOW|discriminate]|rewrite Z.add_comm, Z.mul_comm, Z.mod_add, Z.mod_small; [reflexivity|exact TOW|discriminate]]. }
  destruct XW as [XW XM].
  assert (QI : exists c, In c (present code_of (e_obs e)) /\ c <> cQZS).
  { apply Exists_exists in NQ. destruct NQ as (o & Io & NQ). pose proof (proj1 OK) as PL. rewrite Forall_forall in PL. destruct (PL o Io) as (c & i & j & NS & P & _). exists c. split; [|intros ->; apply NQ; exact P].
    apply filter_In. split; [clear - P; apply Sbp2Msm_epoch_proofs.cons_of_valid in P; destruct c; cbn; try congruence; tauto|].
    assert (I : In o (obs_of code_of c (e_obs e))) by (apply Sbp2Msm_epoch_proofs.obs_of_in; split; [exact Io|exact P]). destruct (obs_of code_of c (e_obs e)) as [|o1 l1]; [destruct I|]. rewrite len_cons. pose proof (len_nonneg l1). apply negb_true_iff, Z.eqb_neq. lia. }
  assert (NE : exists c q more os, In (c, q, more, os) l /\ c <> cQZS).
  { destruct QI as (c & I & N). rewrite <- CS in I. apply in_map_iff in I. destruct I as ([[[c' q] more] os] & E & I). subst c'. eauto 6. }
  destruct (run_sent carrier num_of masked utc_offset consts rest (epoch_ms e) (e_sender e mod 4096) (c_type cfg) map TY MAP l false s) as (s' & o & E & M & BU & FE & LA).
  - exact SE.
  - destruct CH as [->|CH]; [|exact CH]. destruct NE as (? & ? & ? & ? & [] & _).
  - exact B.
  - right. exact NE.
  - rewrite XM. exact X0.
  - exact FM.
  - rewrite B. change (len (@nil pobs)) with 0. rewrite total_all, AK. pose proof (somes_len opts) as SL.
    assert (LO : len opts = len ord) by (unfold len; f_equal; clear - FO; induction FO; cbn [length]; congruence).
    assert (LP : len ord = len (e_obs e)) by (unfold len; f_equal; apply Permutation_length; exact PA). lia.
  - exists s', o. rewrite <- AR. split; [exact E|]. split; [exact BU|]. split; [exact FE|]. split; [exact LA|]. exists ord, opts. split; [exact PA|]. split; [exact FO|]. rewrite B, XW, XM, AK in M. exact M.
Qed.
End Sent.

(** One epoch, whatever the receiver got before (no half-received epoch): sbp2rtcm makes valid frames of it, and rtcm3tosbp makes of them exactly one SBP epoch
    with the same time and station, whose observations are those of the epoch as C65 says. *)
Theorem C82_epoch_arrives_partial : forall carrier num_of code_of tx masked utc_offset consts (A O : Type) (rest : Z -> list Z -> rstate pobs (list Z * A) -> A * list O) cfg leap e (s : rstate pobs (list Z * A)),
  carriers_ok carrier -> (forall k, code_of (num_of k) = k) -> fcn_map_ok tx -> fcn_map_ok (fcns s) -> maps_agree tx (fcns s) ->
  c_type cfg = 4 \/ c_type cfg = 5 -> c_leap cfg = Some leap -> -128 <= leap <= 127 ->
  sendable code_of e -> r_buf s = [] -> oh_tow (e_hdr e) <> 0 \/ gps_time_valid (r_last_gps s) = true ->
  exists fs, out_frames carrier code_of tx cfg e = Ok fs /\ Forall valid_frame fs /\
  forall refs, Forall (in_step utc_offset leap (has_glo code_of (e_obs e)) (epoch_ms e)) refs -> length refs = length fs ->
  exists s' o, rx_run carrier num_of zero_opts masked utc_offset consts rest (combine (List.map Some refs) (List.map payload_of fs)) s = Some (s', o) /\
    r_buf s' = [] /\ arrived carrier code_of (c_type cfg) tx (fcns s) masked e (seen o).
Proof.
  intros carrier num_of code_of tx masked utc consts A O rest cfg leap e s CAR NUM TX MAP AG TY LK LR SE B X0.
  destruct (one_epoch carrier num_of code_of masked utc consts rest CAR NUM tx (fcns s) cfg leap TX MAP AG TY LK LR e SE) as (fs & E & V & _ & R).
  exists fs. split; [exact E|]. split; [exact V|]. intros refs F L. destruct (R refs F L s eq_refl B X0) as (s' & o & E' & B' & _ & _ & AR). exists s', o. auto.
Qed.

(** A stream of epochs, as bytes: the frames of the epochs one after another, in pieces of any size and with garbage in between, are received as these epochs, in this order,
    and nothing else.  The receiver starts fresh; its first epoch must not be exactly at the start of a week.  [refs]: the receiver's time at each frame. *)
Theorem C82_stream_arrives_partial : forall carrier num_of code_of tx masked utc_offset consts (A O : Type) (rest : Z -> list Z -> rstate pobs (list Z * A) -> A * list O) a cfg leap es,
  carriers_ok carrier -> (forall k, code_of (num_of k) = k) -> fcn_map_ok tx ->
  c_type cfg = 4 \/ c_type cfg = 5 -> c_leap cfg = Some leap -> -128 <= leap <= 127 ->
  Forall (sendable code_of) es -> (forall e es', es = e :: es' -> oh_tow (e_hdr e) <> 0) ->
  exists fss, Forall2 (fun e fs => out_frames carrier code_of tx cfg e = Ok fs /\ Forall valid_frame fs) es fss /\
  forall chunks refss, Forall good_read chunks -> garbage_separated (concat fss) (concat chunks) ->
  Forall2 (fun e refs => Forall (in_step utc_offset leap (has_glo code_of (e_obs e)) (epoch_ms e)) refs) es refss -> Forall2 (fun (refs : list gtime) (fs : list (list Z)) => length refs = length fs) refss fss ->
  exists s' o gs, rx_bytes carrier num_of zero_opts masked utc_offset consts rest chunks (List.map Some (concat refss)) (rx_init a) = Some (s', o) /\ seen o = concat gs /\
    Forall2 (arrived carrier code_of (c_type cfg) tx (repeat 255 29) masked) es gs.
Proof.
  intros carrier num_of code_of tx masked utc consts A O rest a cfg leap es CAR NUM TX TY LK LR F T0.
  set (map0 := repeat 255 29).
  assert (MAP : fcn_map_ok map0) by (split; [reflexivity|]; apply Forall_forall; intros v I; apply repeat_spec in I; right; exact I).
  assert (AG : maps_agree tx map0).
  { intros v Hv. left. unfold map0, znth. destruct (nth_in_or_default (Z.to_nat v) (repeat 255 29) 255) as [I|I]; [apply repeat_spec in I; exact I|exact I]. }
  assert (X : forall es, Forall (sendable code_of) es -> exists fss, Forall2 (fun e fs => out_frames carrier code_of tx cfg e = Ok fs /\ Forall valid_frame fs) es fss /\
    forall refss, Forall2 (fun e refs => Forall (in_step utc leap (has_glo code_of (e_obs e)) (epoch_ms e)) refs) es refss -> Forall2 (fun (refs : list gtime) (fs : list (list Z)) => length refs = length fs) refss fss ->
    forall s : rstate pobs (list Z * A), fcns s = map0 -> r_buf s = [] -> ((forall e es', es = e :: es' -> oh_tow (e_hdr e) <> 0) \/ gps_time_valid (r_last_gps s) = true) ->
    exists s' o gs, rx_run carrier num_of zero_opts masked utc consts rest (combine (List.map Some (concat refss)) (List.map payload_of (concat fss))) s = Some (s', o) /\ seen o = concat gs /\
      Forall2 (arrived carrier code_of (c_type cfg) tx map0 masked) es gs).
  { clear es F T0. induction es as [|e es IH]; intros F.
    - exists []. split; [constructor|]. intros refss I L s FM B X0. inversion I; subst. exists s, [], []. split; [reflexivity|]. split; [reflexivity|constructor].
    - inversion F as [|? ? SE F']; subst. destruct (IH F') as (fss & G & R).
      destruct (one_epoch carrier num_of code_of masked utc consts rest CAR NUM tx map0 cfg leap TX MAP AG TY LK LR e SE) as (fs & E & V & _ & RE).
      exists (fs :: fss). split; [constructor; [split; assumption|exact G]|]. intros refss I L s FM B X0. inversion I as [|? refs ? refss' I1 I2]; subst. inversion L as [|? ? ? ? L1 L2]; subst.
      destruct (RE refs I1 L1 s FM B) as (s1 & o1 & E1 & B1 & F1 & LA & AR1); [destruct X0 as [X0|X0]; [left; eapply X0; reflexivity|right; exact X0]|].
      destruct (R refss' I2 L2 s1 F1 B1) as (s2 & o2 & gs & E2 & S2 & AR2); [right; destruct LA as (V1 & _ & V2 & _); rewrite V2; exact V1|].
      exists s2, (o1 ++ o2), (seen o1 :: gs). split; [|split; [rewrite ObsExcl_proofs.seen_app, S2; reflexivity|constructor; assumption]].
      cbn [concat]. rewrite !List.map_app. rewrite combine_app by (rewrite !map_length; exact L1). eapply run_app; eassumption. }
  destruct (X es F) as (fss & G & R). exists fss. split; [exact G|]. intros chunks refss GR GS I L.
  destruct (C03_every_frame_delivered chunks (concat fss) GR GS) as (r & E).
  destruct (R refss I L (rx_init a) eq_refl eq_refl (or_introl T0)) as (s' & o & gs & ER & S & AR). exists s', o, gs. split; [|split; assumption].
  unfold rx_bytes. rewrite E. exact ER.
Qed.

(** From SBP messages to SBP messages: the complete message sequence [ps] of an epoch, given to sbp2rtcm after any (well formed) history, comes out of rtcm3tosbp as one epoch. *)
Theorem C82_messages_arrive_partial : forall carrier num_of code_of tx masked utc_offset consts (A O : Type) (rest : Z -> list Z -> rstate pobs (list Z * A) -> A * list O) cfg leap w sender h es s1 out sd t ps (s : rstate pobs (list Z * A)),
  carriers_ok carrier -> (forall k, code_of (num_of k) = k) -> fcn_map_ok tx -> fcn_map_ok (fcns s) -> maps_agree tx (fcns s) ->
  c_type cfg = 4 \/ c_type cfg = 5 -> c_leap cfg = Some leap -> -128 <= leap <= 127 ->
  events_ok w es -> run (init sender h) es = Ok (s1, out) -> Sbp2Rtcm_spec.complete_epoch t ps -> ready_for s1 sd t -> Forall (fun p => w <= oh_wn (parse_hdr p) <= w + 3550) ps ->
  let os := flat_map wanted_obs ps in
  epoch_ok code_of os -> Forall MsmVal_spec.obs_in_range os -> Exists (fun o => ~ of_cons code_of cQZS o) os ->
  r_buf s = [] -> t mod WEEK <> 0 \/ gps_time_valid (r_last_gps s) = true ->
  exists hd pre, let e := mkepoch sd hd os in
    run (init sender h) (es ++ List.map (EObs sd) ps) = Ok (mkost sd hd [], out ++ pre ++ [e]) /\ epoch_ms e = t /\ (pre = [] \/ pre = [mkepoch (os_sender s1) (os_hdr s1) (os_buf s1)]) /\
    exists fs, out_frames carrier code_of tx cfg e = Ok fs /\ Forall valid_frame fs /\
    forall refs, Forall (in_step utc_offset leap (has_glo code_of os) t) refs -> length refs = length fs ->
    exists s' o, rx_run carrier num_of zero_opts masked utc_offset consts rest (combine (List.map Some refs) (List.map payload_of fs)) s = Some (s', o) /\
      r_buf s' = [] /\ arrived carrier code_of (c_type cfg) tx (fcns s) masked e (seen o).
Proof.
  intros carrier num_of code_of tx masked utc consts A O rest cfg leap w sender h es s1 out sd t ps s CAR NUM TX MAP AG TY LK LR EV R C RD W os OK RG NQ B X0.
  destruct (C28_complete_epoch_delivered_partial w sender h es s1 out sd t ps EV R C RD W) as (hd & pre & R2 & (T & TW) & PR). fold os in R2.
  exists hd, pre. cbv zeta. set (e := mkepoch sd hd os) in *. split; [exact R2|]. split; [exact T|]. split; [exact PR|].
  assert (L : len os <= 210).
  { assert (Z0 : len (os_buf (init sender h)) <= 210) by (cbn; lia). destruct (run_small _ _ _ Z0 R2) as [_ L2]. rewrite Forall_forall in L2. specialize (L2 e). apply L2. apply in_or_app. right. apply in_or_app. right. left. reflexivity. }
  assert (SE : sendable code_of e) by (split; [exact TW|]; split; [exact OK|]; split; [exact RG|]; split; [exact L|exact NQ]).
  assert (XM : t mod WEEK = oh_tow hd) by (rewrite <- T; unfold WEEK; rewrite Z.add_comm, Z.mul_comm, Z.mod_add, Z.mod_small; [reflexivity|exact TW|discriminate]).
  destruct (one_epoch carrier num_of code_of masked utc consts rest CAR NUM tx (fcns s) cfg leap TX MAP AG TY LK LR e SE) as (fs & E & V & _ & RR).
  exists fs. split; [exact E|]. split; [exact V|]. intros refs F LL. rewrite <- T in F. destruct (RR refs F LL s eq_refl B) as (s' & o & E' & B' & _ & _ & AR); [rewrite XM in X0; exact X0|]. exists s', o. auto.
Qed.

(** ** A concrete case: the epoch of C65 (GPS and GLONASS) from station 0x1234 *)
Definition tx_ref (e : Sbp2Rtcm_model.epoch) : gtime := mkt (oh_wn (e_hdr e)) (oh_tow (e_hdr e) - 18000).
Definition through (ty : Z) (es : list Sbp2Rtcm_model.epoch) : option (list (out pobs unit)) :=
  match Conv_model.all_ok (List.map (out_frames ex_carrier ex_code_of ex_fcns (ex_cfg ty)) es) with
  | Ok fss => option_map snd (rx_run ex_carrier ex_num_of zero_opts (fun _ => false) ex_utc (fun _ => d0) ex_rest
      (flat_map (fun '(e, fs) => List.map (fun f => (Some (tx_ref e), payload_of f)) fs) (combine es fss)) (rx_init tt))
  | _ => None
  end.
Lemma ex_sendable : sendable ex_code_of ex_epoch.
Proof.
  split; [unfold WEEK; cbn; lia|]. split; [exact ex_epoch_ok|]. split; [exact ex_in_range|]. split; [vm_compute; congruence|]. apply Exists_cons_hd. intros E. vm_compute in E. discriminate E.
Qed.
Example C82_nonvacuous : sendable ex_code_of ex_epoch /\ in_step ex_utc 18 (has_glo ex_code_of (e_obs ex_epoch)) (epoch_ms ex_epoch) (tx_ref ex_epoch) /\ oh_tow (e_hdr ex_epoch) <> 0.
Proof.
  split; [exact ex_sendable|]. split; [|discriminate]. unfold in_step, good_time, plausible, ex_utc, at_ms, tx_ref, epoch_ms, WEEK. cbn [wn tow e_hdr ex_epoch oh_wn oh_tow]. repeat split; lia.
Qed.
Example C82_result : through 5 [ex_epoch; ex_epoch] = Some
  [OObs 62132 2190 345600200 16 [mkpobs 1061728394 111588407 107 3217 229 180 9 15 5 0; mkpobs 1061728562 86952019 117 2507 115 160 9 15 5 6; mkpobs 1200006172 126121499 250 (-1752) 127 172 5 11 12 0;
     mkpobs 999999975 106911459 99 (-5354) 104 200 12 15 7 16];
   OObs 62132 2190 345600200 16 [mkpobs 1061728394 111588407 107 3217 229 180 9 15 5 0; mkpobs 1061728562 86952019 117 2507 115 160 9 15 5 6; mkpobs 1200006172 126121499 250 (-1752) 127 172 5 11 12 0;
     mkpobs 999999975 106911459 99 (-5354) 104 200 12 15 7 16]].
Proof. vm_compute. reflexivity. Qed.
(** finding: the station of the epoch is not preserved: sender 0x1234 (and 0x5234) comes out as 0xF2B4 *)
Theorem C82_sender_refuted : e_sender ex_epoch = 0x1234 /\ sender_of (e_sender ex_epoch mod 4096) = 0xF2B4 /\
  through 5 [ex_epoch] = through 5 [mkepoch 0x5234 (e_hdr ex_epoch) (e_obs ex_epoch)].
Proof. split; [reflexivity|]. split; [reflexivity|]. vm_compute. reflexivity. Qed.
(** finding: an epoch with only QZSS observations comes out as an empty epoch of sender 0 at time 0 *)
Definition qzss_epoch : Sbp2Rtcm_model.epoch := mkepoch 0x1234 (mkohdr 345600200 0 2190 16) [mkpobs 1061728394 111588407 107 3217 229 180 9 15 193 35].
Theorem C82_qzss_only_refuted : ex_code_of 35 = QZS_L1CA /\ through 5 [qzss_epoch] = Some [OObs 0 0 0 16 []].
Proof. split; [reflexivity|]. vm_compute. reflexivity. Qed.
(** finding: the first epoch, if it is exactly at the start of a week, comes out empty, too; later ones do not *)
Definition week_epoch : Sbp2Rtcm_model.epoch := mkepoch 0x1234 (mkohdr 0 0 2190 16) (e_obs ex_epoch).
Definition week_ref (w : Z) : gtime := mkt (w - 1) 604782000.
Definition at_week (es : list Sbp2Rtcm_model.epoch) : option (list (out pobs unit)) :=
  match Conv_model.all_ok (List.map (out_frames ex_carrier ex_code_of ex_fcns (ex_cfg 5)) es) with
  | Ok fss => option_map snd (rx_run ex_carrier ex_num_of zero_opts (fun _ => false) ex_utc (fun _ => d0) ex_rest (List.map (fun f => (Some (week_ref 2190), payload_of f)) (concat fss)) (rx_init tt))
  | _ => None
  end.
Theorem C82_week_start_refuted : sendable ex_code_of week_epoch /\ in_step ex_utc 18 true (epoch_ms week_epoch) (week_ref 2190) /\ at_week [week_epoch] = Some [OObs 0 0 0 16 []].
Proof.
  split; [destruct ex_sendable as (_ & H); split; [unfold WEEK; cbn; lia|exact H]|]. split.
  - unfold in_step, good_time, plausible, ex_utc, at_ms, week_ref, epoch_ms, WEEK. cbn [wn tow e_hdr week_epoch oh_wn oh_tow]. repeat split; lia.
  - vm_compute. reflexivity.
Qed.
Print Assumptions C82_epoch_arrives_partial.
Print Assumptions C82_stream_arrives_partial.
Print Assumptions C82_messages_arrive_partial.
Print Assumptions C82_nonvacuous.
Print Assumptions C82_result.
Print Assumptions C82_sender_refuted.
Print Assumptions C82_qzss_only_refuted.
Print Assumptions C82_week_start_refuted.
