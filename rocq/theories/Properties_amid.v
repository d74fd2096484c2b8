(** C87 and C82: observation epochs relayed among other messages. *)
From Coq Require Import Permutation.
From Verif Require Import Base RtcmFraming_model RtcmFraming_spec Time_model RtcmMsm_model RtcmMsm_spec Signals_model Double_model Sbp2Rtcm_model Sbp2Msm_model Sbp2Msm_spec MsmVal_model MsmVal_spec RtcmFrameOut_model Options_model
  ObsBuffer_model ObsBuffer_spec ObsExcl_spec ObsExcl_proofs Rx_model Rx_spec Rx_proofs RxTx_model RxTx_spec RxTx_proofs Properties_sbp2rtcm Properties_msmval Properties_rx Properties_rxtx Relay_model Apart_spec Apart_proofs Properties_apart.
Local Open Scope Z_scope.

Lemma observations_seen {obs O} (l : list (out obs O)) : observations (seen l) = observations l.
Proof. induction l as [|o l IH]; [reflexivity|]. unfold seen, observations in *. cbn [filter flat_map]. destruct o; cbn [flat_map app]; rewrite ?IH; reflexivity. Qed.
Lemma observations_concat {obs O} (gs : list (list (out obs O))) : observations (concat gs) = concat (map observations gs).
Proof. induction gs as [|g gs IH]; [reflexivity|]. cbn [concat map]. rewrite observations_app, IH. reflexivity. Qed.

(** C82 at the level of payloads *)
Lemma epochs_arrive : forall carrier num_of code_of tx masked utc_offset consts (A O : Type) (rest : Z -> list Z -> rstate pobs (list Z * A) -> A * list O) a cfg leap es,
  carriers_ok carrier -> (forall k, code_of (num_of k) = k) -> fcn_map_ok tx ->
  c_type cfg = 4 \/ c_type cfg = 5 -> c_leap cfg = Some leap -> -128 <= leap <= 127 ->
  Forall (sendable code_of) es -> (forall e es', es = e :: es' -> oh_tow (e_hdr e) <> 0) ->
  exists fss, Forall2 (fun e fs => out_frames carrier code_of tx cfg e = Ok fs /\ Forall valid_frame fs) es fss /\
  forall refss, Forall2 (fun e refs => Forall (in_step utc_offset leap (has_glo code_of (e_obs e)) (epoch_ms e)) refs) es refss -> Forall2 (fun (refs : list gtime) (fs : list (list Z)) => length refs = length fs) refss fss ->
  exists s' o gs, rx_run carrier num_of zero_opts masked utc_offset consts rest (combine (map Some (concat refss)) (map payload_of (concat fss))) (rx_init a) = Some (s', o) /\ seen o = concat gs /\
    Forall2 (arrived carrier code_of (c_type cfg) tx (repeat 255 29) masked) es gs.
Proof.
  intros carrier num_of code_of tx masked utc consts A O rest a cfg leap es CAR NUM TX TY LK LR F T0.
  set (map0 := repeat 255 29).
  assert (MAP : fcn_map_ok map0) by (split; [reflexivity|]; apply Forall_forall; intros v I; apply repeat_spec in I; right; exact I).
  assert (AG : maps_agree tx map0).
  { intros v Hv. left. unfold map0, znth. destruct (nth_in_or_default (Z.to_nat v) (repeat 255 29) 255) as [I|I]; [apply repeat_spec in I; exact I|exact I]. }
  assert (X : forall es, Forall (sendable code_of) es -> exists fss, Forall2 (fun e fs => out_frames carrier code_of tx cfg e = Ok fs /\ Forall valid_frame fs) es fss /\
    forall refss, Forall2 (fun e refs => Forall (in_step utc leap (has_glo code_of (e_obs e)) (epoch_ms e)) refs) es refss -> Forall2 (fun (refs : list gtime) (fs : list (list Z)) => length refs = length fs) refss fss ->
    forall s : rstate pobs (list Z * A), fcns s = map0 -> r_buf s = [] -> ((forall e es', es = e :: es' -> oh_tow (e_hdr e) <> 0) \/ gps_time_valid (r_last_gps s) = true) ->
    exists s' o gs, rx_run carrier num_of zero_opts masked utc consts rest (combine (List.map Some (concat refss)) (List.map payload_of (concat fss))) s = Some (s', o) /\ seen o = concat gs /\
      Forall2 (arrived carrier code_of (c_type cfg) tx map0 masked) es gs).
  { clear es F T0. induction es as [|e es IH]; intros F.
    - exists []. split; [constructor|]. intros refss I L s FM B X0. inversion I; subst. exists s, [], []. split; [reflexivity|]. split; [reflexivity|constructor].
    - inversion F as [|? ? SE F']; subst. destruct (IH F') as (fss & G & R).
      destruct (one_epoch carrier num_of code_of masked utc consts rest CAR NUM tx map0 cfg leap TX MAP AG TY LK LR e SE) as (fs & E & V & _ & RE).
      exists (fs :: fss). split; [constructor; [split; assumption|exact G]|]. intros refss I L s FM B X0. inversion I as [|? refs ? refss' I1 I2]; subst. inversion L as [|? ? ? ? L1 L2]; subst.
      destruct (RE refs I1 L1 s FM B) as (s1 & o1 & E1 & B1 & F1 & LA & AR1); [destruct X0 as [X0|X0]; [left; eapply X0; reflexivity|right; exact X0]|].
      destruct (R refss' I2 L2 s1 F1 B1) as (s2 & o2 & gs & E2 & S2 & AR2); [right; destruct LA as (V1 & _ & V2 & _); rewrite V2; exact V1|].
      exists s2, (o1 ++ o2), (seen o1 :: gs). split; [|split; [rewrite ObsExcl_proofs.seen_app, S2; reflexivity|constructor; assumption]].
      cbn [concat]. rewrite !List.map_app. rewrite combine_app by (rewrite !map_length; exact L1). eapply Rx_proofs.run_app; eassumption. }
  destruct (X es F) as (fss & G & R). exists fss. split; [exact G|]. intros refss I L.
  destruct (R refss I L (rx_init a) eq_refl eq_refl (or_introl T0)) as (s' & o & gs & ER & S & AR). exists s', o, gs. auto.
Qed.

(** The epochs sent by sbp2rtcm, with any other messages before, between and after their frames ([l]: the payloads at the receiver with its time at each of them): the observation
    messages of rtcm3tosbp are exactly those of the epochs, in order *)
Theorem C87_epochs_among_others_partial : forall carrier num_of code_of tx masked utc_offset consts (A O : Type) (rest : Z -> list Z -> rstate pobs (list Z * A) -> A * list O) a cfg leap es,
  carriers_ok carrier -> (forall k, code_of (num_of k) = k) -> fcn_map_ok tx ->
  c_type cfg = 4 \/ c_type cfg = 5 -> c_leap cfg = Some leap -> -128 <= leap <= 127 ->
  Forall (sendable code_of) es -> (forall e es', es = e :: es' -> oh_tow (e_hdr e) <> 0) ->
  exists fss, Forall2 (fun e fs => out_frames carrier code_of tx cfg e = Ok fs /\ Forall valid_frame fs) es fss /\
  forall refss l, Forall2 (fun e refs => Forall (in_step utc_offset leap (has_glo code_of (e_obs e)) (epoch_ms e)) refs) es refss -> Forall2 (fun (refs : list gtime) (fs : list (list Z)) => length refs = length fs) refss fss ->
  filter (fun e => concerns_observations (snd e)) l = filter (fun e => concerns_observations (snd e)) (combine (map Some (concat refss)) (map payload_of (concat fss))) ->
  exists s' o (gs : list (list (out pobs O))), rx_run carrier num_of zero_opts masked utc_offset consts rest l (rx_init a) = Some (s', o) /\ observations o = concat (map observations gs) /\
    Forall2 (arrived carrier code_of (c_type cfg) tx (repeat 255 29) masked) es gs.
Proof.
  intros carrier num_of code_of tx masked utc consts A O rest a cfg leap es CAR NUM TX TY LK LR F T0.
  destruct (epochs_arrive carrier num_of code_of tx masked utc consts A O rest a cfg leap es CAR NUM TX TY LK LR F T0) as (fss & G & R). exists fss. split; [exact G|]. intros refss l I L FL.
  destruct (R refss I L) as (s' & o & gs & E & S & AR).
  pose proof (C87_observations_apart carrier num_of zero_opts masked utc consts A O A O rest rest a a _ _ FL) as Q. rewrite E in Q. cbn [option_map snd] in Q.
  destruct (rx_run carrier num_of zero_opts masked utc consts rest l (rx_init a)) as [[s2 o2]|]; [|discriminate Q]. cbn [option_map snd] in Q. injection Q as Q. exists s2, o2, gs. split; [reflexivity|]. split; [|exact AR].
  rewrite Q, <- observations_seen, S, observations_concat. reflexivity.
Qed.
Print Assumptions C87_epochs_among_others_partial.
