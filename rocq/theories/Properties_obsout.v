(** C85: whatever bytes rtcm3tosbp is given, every SBP observation message it sends is well-formed. *)
From Verif Require Import Base Time_model RtcmFraming_model RtcmMsm_model Signals_model Double_model Sbp2Rtcm_model Sbp2Msm_model MsmVal_model Options_model ObsBuffer_model Rx_model ObsOut_spec ObsOut_proofs ObsOut_obs_proofs Properties_msmval Properties_msmrx Properties_rx.
Local Open Scope Z_scope.

(** Any sequence of payloads (any integers, decodable or not), with or without a known time, any options, any constellation mask, any conversion of the other messages.
    [wn ref <= 32767] is the range of the C type of the week number.  Where the result of rx_run is None the code has undefined behaviour (a conversion of a double outside the
    range of its integer type) or a failed assertion *)
Theorem C85_messages_well_formed : forall carrier num_of op masked utc_offset consts (A O : Type) (rest : Z -> list Z -> rstate pobs (list Z * A) -> A * list O) a l s' o,
  (forall ref p, In (Some ref, p) l -> wn ref <= 32767) ->
  rx_run carrier num_of op masked utc_offset consts rest l (rx_init a) = Some (s', o) ->
  Forall (output_ok (obs_ok num_of masked)) o.
Proof. intros carrier num_of op masked utc consts A O rest a l s' o T E. eapply run_ok; [exact T|apply init_ok|exact E]. Qed.
(** The same from the bytes: any reads, any contents *)
Theorem C85_any_bytes : forall carrier num_of op masked utc_offset consts (A O : Type) (rest : Z -> list Z -> rstate pobs (list Z * A) -> A * list O) a chunks times s' o,
  (forall ref, In (Some ref) times -> wn ref <= 32767) ->
  rx_bytes carrier num_of op masked utc_offset consts rest chunks times (rx_init a) = Some (s', o) ->
  Forall (output_ok (obs_ok num_of masked)) o.
Proof.
  intros carrier num_of op masked utc consts A O rest a chunks times s' o T E. unfold rx_bytes in E. destruct (RtcmFraming_model.run chunks) as [[r fs]|]; [|discriminate]. refine (C85_messages_well_formed _ _ _ _ _ _ _ _ _ _ _ _ _ _ E).
  intros ref p H. apply in_combine_l in H. apply T in H. exact H.
Qed.
(** and of every observation in every message, in words that need no definition: if it has no phase flag, there is no phase in it, and so on *)
Corollary C85_no_value_without_flag : forall carrier num_of op masked utc_offset consts (A O : Type) (rest : Z -> list Z -> rstate pobs (list Z * A) -> A * list O) a chunks times s' o sender w t n os ob,
  (forall ref, In (Some ref) times -> wn ref <= 32767) ->
  rx_bytes carrier num_of op masked utc_offset consts rest chunks times (rx_init a) = Some (s', o) -> In (OObs sender w t n os) o -> In ob os ->
  Z.odd (o_flags ob) = true /\ (Z.testbit (o_flags ob) 1 = false -> o_Li ob = 0 /\ o_Lf ob = 0) /\ (Z.testbit (o_flags ob) 3 = false -> o_Di ob = 0 /\ o_Df ob = 0) /\ 61568 <= sender <= 65535 /\ 1 <= o_sat ob <= 202.
Proof.
  intros carrier num_of op masked utc consts A O rest a chunks times s' o sender w t n os ob T E I1 I2. apply C85_any_bytes in E; [|exact T]. rewrite Forall_forall in E. specialize (E _ I1). cbn [output_ok] in E.
  destruct E as (S & _ & _ & _ & _ & _ & _ & _ & F). rewrite Forall_forall in F. specialize (F _ I2). destruct F as (_ & _ & _ & _ & _ & _ & _ & _ & F0 & F1 & F3 & k & c & _ & _ & _ & R & _).
  rewrite Z.bit0_odd in F0. split; [exact F0|]. split; [intros H; destruct (F1 H) as (X & Y & _); auto|]. split; [exact F3|]. split; [destruct S as [S|[_ ->]]; [exact S|destruct I2]|]. destruct c; cbn in R; lia.
Qed.

(** ** An example: the two epochs of C81 with an undecodable message between them; two messages with 2 and 5 observations come out (C81_result) *)
Definition ex_history : list (option gtime * list Z) := ex_msm_events ++ [(None, [0xFF; 0x00; 0x11])] ++ ex_leg_events.
Example C85_nonvacuous : (forall ref p, In (Some ref, p) ex_history -> wn ref <= 32767) /\
  exists s' o, rx_run ex_carrier ex_num_of ex_opts (fun _ => false) ex_utc (fun _ => d0) ex_rest ex_history (rx_init tt) = Some (s', o) /\
  map (fun m => match m with OObs _ _ _ _ os => len os | _ => -1 end) o = [2; 5].
Proof.
  split.
  - intros ref p H. unfold ex_history, ex_msm_events, ex_leg_events, at_t in H. cbn [app In] in H. repeat (destruct H as [H|H]; [try discriminate H; injection H as <- _; cbn; lia|]). destruct H.
  - set (r := rx_run _ _ _ _ _ _ _ _ _).
    assert (E : option_map (fun x => map (fun m => match m with OObs _ _ _ _ os => len os | _ => -1 end) (snd x)) r = Some [2; 5]) by (vm_compute; reflexivity).
    destruct r as [[s' o]|]; [|discriminate E]. exists s', o. split; [reflexivity|]. cbn [option_map snd] in E. injection E as E. exact E.
Qed.
Print Assumptions C85_messages_well_formed.
Print Assumptions C85_any_bytes.
Print Assumptions C85_no_value_without_flag.
Print Assumptions C85_nonvacuous.
