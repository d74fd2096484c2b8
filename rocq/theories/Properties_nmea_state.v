(** C45, C46, C48, C50: when NMEA sentences are sent and what they are built from. *)
From Coq Require Import String Reals Lra Sorted.
From Flocq Require Import Core.Zaux Core.Raux IEEE754.Binary IEEE754.Bits.
From Verif Require Import Base Double_model Double_proofs Esf_model Signals_model RtcmMsm_model RtcmLegacy_model Sbp2Msm_model Sbp2Rtcm_model Sbp2Rtcm_proofs NmeaText_model NmeaTime_model
  Nmea_model Nmea_spec NmeaState_model NmeaState_spec NmeaState_proofs NmeaObs_proofs NmeaSeq_proofs NmeaRun_proofs ObsBuffer_spec NmeaExample.
Open Scope Z_scope.
Open Scope list_scope.

Section Histories.
(** external functions, as in Properties_nmea.v *)
Variable code_of : Z -> code.
Variable ff : Z -> Z -> dbl -> list Z.
Variable geoid : dbl -> dbl -> dbl.
Variable knots kmh course : Z -> Z -> dbl.
Variable gst_vals : Z -> list dbl.
Variable pubx_acc : Z -> dbl * dbl.
Variable heading_float mm_down : Z -> dbl.
Variable eps : dbl.
Notation builders := (send code_of ff geoid knots kmh course gst_vals pubx_acc heading_float mm_down).
Notation history := (run code_of builders eps).
Let frame := send_frame code_of ff geoid knots kmh course gst_vals pubx_acc heading_float mm_down.

(** ** C45 *)
(** The sentences of a kind are a function of the messages listed for it in the specification (and the satellite list, the remembered course, the base station). *)
Theorem C45_only_from_its_messages : forall k s t, n_act s <> mBEST -> agree k s t -> option_map snd (builders k s) = option_map snd (builders k t).
Proof. intros k s t. apply send_agree. Qed.

(** In every history, whatever the order of the calls, a sentence is built from the last messages received, and while the GNSS solution is being reported
    (always, for the kinds that only exist there) all of these messages that carry a time have the time of week of the sentence. *)
Theorem C45_one_epoch_partial : forall req cs s' os o, history (init req) cs = Some (s', os) -> In o os ->
  exists cs1 cs2 t, cs = cs1 ++ cs2 /\ option_map snd (builders (o_kind o) t) = Some (o_sents o) /\ (forall id, n_slot t id = last_msg (is_glo code_of) req id cs1 zeroed) /\
    n_act t = mode_after req cs1 /\
    (n_act t = mGNSS \/ in_fused (o_kind o) = false -> forall id, In id (sources_gnss (o_kind o)) -> timed id -> s_tow (last_msg (is_glo code_of) req id cs1 zeroed) = o_tow o) /\
    (n_act t = mFUSED /\ in_fused (o_kind o) = true -> s_tow (last_msg (is_glo code_of) req sUTC_TIME cs1 zeroed) = o_tow o).
Proof.
  intros req cs s' os o E I. destruct (emission code_of builders eps frame _ _ _ _ _ E I) as (cs1 & cs2 & t & -> & _ & SL & AC & RQ & TW & SN & _ & s0 & SM & RD & _).
  exists cs1, cs2, t. split; [reflexivity|]. split; [exact SN|]. split; [exact SL|]. split; [exact AC|].
  assert (SB : n_act s0 = n_act t /\ n_slot s0 = n_slot t) by (clear - SM; unfold same_but in SM; decompose [and] SM; split; congruence). destruct SB as [SA SS].
  split.
  - intros M id ID T. rewrite <- SL, <- SS. rewrite (ready_sources _ _ RD) by (try assumption; rewrite SA; exact M). unfold utc_tow. rewrite SS, TW. unfold ref_tow, tow_of, get_tow, msg_get.
    destruct M as [M|M]; [|rewrite M; reflexivity]. rewrite M. destruct (in_fused (o_kind o)); reflexivity.
  - intros [M F]. rewrite <- SL, TW. unfold ref_tow, tow_of, get_tow, msg_get. rewrite F, M. reflexivity.
Qed.
(** Two sentences of a kind in a row never have the same time of week ... *)
Theorem C45_not_twice_in_a_row : forall req cs s' os k, history (init req) cs = Some (s', os) -> Sorted (fun a b => a <> b) (List.map o_tow (of_kind k os)).
Proof. intros req cs s' os k E. apply (run_consecutive code_of builders eps frame cs k (init req) s' os); [discriminate|exact E]. Qed.
(** ... and without switching to the fused solution, while the times of week of the UTC messages do not decrease, each time of week occurs at most once. *)
Theorem C45_at_most_once_partial : forall req cs s' os k, req <> mBEST -> nondecreasing 0 (utc_tows req cs) -> history (init req) cs = Some (s', os) ->
  StronglySorted Z.lt (List.map o_tow (of_kind k os)).
Proof. intros req cs s' os k B N E. apply (run_increasing code_of builders eps frame cs k (init req) s' os B eq_refl E N). cbn. lia. Qed.
(** An epoch is not missed: as soon as the last of the required messages has been stored the sentence of that epoch has been sent (unless its time of week is 0). *)
Theorem C45_complete_epoch_is_sent_partial : forall req cs id m s' os k, req <> mBEST -> k <> GSA -> req = mGNSS \/ in_fused k = true ->
  history (init req) (cs ++ [CMsg id m]) = Some (s', os) -> thrown_away (is_glo code_of) (effective req id) m = false ->
  let tow := s_tow (last_msg (is_glo code_of) req sUTC_TIME_G (cs ++ [CMsg id m]) zeroed) in
  (forall i, In i (required k) -> s_tow (last_msg (is_glo code_of) req i (cs ++ [CMsg id m]) zeroed) = tow) ->
  check_nmea_rate (last_rate k cs 0 mod 2 ^ 32) tow (last_freq cs (fofbits 0)) = Some true -> tow <> 0 ->
  exists o, In o os /\ o_kind o = k /\ o_tow o = tow.
Proof.
  intros req cs id m s' os k NB NG RF E TA tow RM CR NZ. pose proof (slots_run code_of builders eps frame _ _ _ _ E) as [_ SL]. cbn [n_req n_slot init] in SL.
  pose proof (mode_init code_of builders eps frame _ _ _ _ E) as [MR MA]. pose proof (config_run code_of builders eps frame _ _ _ _ E) as [C1 C2]. cbn [n_rate n_freq init] in C1, C2.
  pose proof (last_run code_of builders eps frame _ k _ _ _ E) as LR. cbn [n_last init] in LR.
  rewrite run_app in E. destruct (history (init req) cs) as [[s1 o1]|] eqn:E1; [|discriminate E]. cbn [NmeaState_model.run] in E.
  destruct (step code_of builders eps s1 (CMsg id m)) as [[s2 o2]|] eqn:E2; [|discriminate E]. injection E as <- <-.
  pose proof (mode_init code_of builders eps frame _ _ _ _ E1) as [MR1 _].
  assert (TW : utc_tow s2 = tow) by (unfold utc_tow, tow; rewrite SL; reflexivity).
  assert (RC : recode s1 id = effective req id) by (unfold recode, effective; rewrite MR1; destruct req, id; reflexivity).
  assert (LS : n_last s2 k = tow).
  { rewrite <- TW. eapply (complete_sent code_of builders eps frame s1 id m s2 o2 k E2).
    - rewrite RC, <- TA. unfold discard, thrown_away. destruct (effective req id); reflexivity.
    - rewrite MA. unfold mode_after. destruct req; [contradiction|reflexivity|reflexivity].
    - rewrite MR. destruct RF as [->|F]; [left; discriminate|right; exact F].
    - exact NG.
    - intros i J. rewrite SL, TW. apply RM. replace (required k) with (tow_mask k) by (destruct k; reflexivity). exact J.
    - rewrite C1, C2, TW. assert (LA : forall d f, last_rate k (cs ++ [CMsg id m]) d = last_rate k cs d /\ last_freq (cs ++ [CMsg id m]) f = last_freq cs f).
      { clear. induction cs as [|c cs IH]; intros d f; [split; reflexivity|]. destruct c; cbn [app last_rate last_freq]; apply IH. }
      destruct (LA 0 (fofbits 0)) as [-> ->]. exact CR. }
  destruct LR as [H|(o & I & K & T)]; [congruence|]. exists o. split; [exact I|]. split; [exact K|congruence].
Qed.

(** ** C46 *)
(** A sentence is only sent at times of week that pass the rate check with the rate and the solution frequency set last ... *)
Theorem C46_rate_is_respected : forall req cs s' os o, history (init req) cs = Some (s', os) -> In o os ->
  exists cs1 cs2, cs = cs1 ++ cs2 /\ check_nmea_rate (last_rate (o_kind o) cs1 0 mod 2 ^ 32) (o_tow o) (last_freq cs1 (fofbits 0)) = Some true.
Proof.
  intros req cs s' os o E I. destruct (emission code_of builders eps frame _ _ _ _ _ E I) as (cs1 & cs2 & t & -> & _ & _ & _ & _ & _ & _ & CR & _). exists cs1, cs2. split; [reflexivity|exact CR].
Qed.
(** ... so none is sent of a kind that was never given a rate or always the rate 0. *)
Theorem C46_rate_zero_disables : forall req cs s' os k, history (init req) cs = Some (s', os) -> (forall r, In (CRate k r) cs -> r = 0) -> of_kind k os = [].
Proof.
  intros req cs s' os k E Z. destruct (of_kind k os) as [|o l] eqn:O; [reflexivity|]. exfalso.
  assert (I : In o (of_kind k os)) by (rewrite O; left; reflexivity). unfold of_kind in I. apply filter_In in I. destruct I as [I K]. destruct (kind_eq_dec (o_kind o) k) as [<-|]; [|discriminate K].
  destruct (C46_rate_is_respected _ _ _ _ _ E I) as (cs1 & cs2 & -> & C).
  assert (R : last_rate (o_kind o) cs1 0 = 0).
  { assert (Z1 : forall r, In (CRate (o_kind o) r) cs1 -> r = 0) by (intros r J; apply Z; apply in_or_app; left; exact J). clear - Z1. induction cs1 as [|c cs IH]; [reflexivity|].
    assert (IH' : last_rate (o_kind o) cs 0 = 0) by (apply IH; intros r J; apply Z1; right; exact J). destruct c as [i m|m|k r|b|f|a b]; cbn [last_rate]; try exact IH'.
    destruct (kind_eq_dec k (o_kind o)) as [->|]; [rewrite (Z1 r (or_introl eq_refl))|]; exact IH'. }
  rewrite R in C. discriminate C.
Qed.

(** ** C48 *)
(** From the start on the GNSS solution is the source; only when the best solution was asked for and a fused group has been announced it is the fused one, for good. *)
Theorem C48_mode : forall req cs s' os, history (init req) cs = Some (s', os) ->
  n_req s' = req /\ n_act s' = (if mode_eqb req mBEST && existsb is_group cs then mFUSED else mGNSS).
Proof. intros req cs s' os E. apply (mode_init code_of builders eps frame _ _ _ _ E). Qed.
Theorem C48_never_back : forall req cs cs' s s' os os', history (init req) cs = Some (s, os) -> n_act s = mFUSED -> history s cs' = Some (s', os') -> n_act s' = mFUSED.
Proof.
  intros req cs cs' s s' os os' E A E'. destruct (act_run code_of builders eps frame _ _ _ _ E') as [_ H]; [rewrite A; discriminate|]. rewrite H, A. rewrite andb_false_r. reflexivity.
Qed.

(** ** C50 *)
Hypothesis eps_fin : dfin eps = true.
Hypothesis eps_range : (0 <= dR eps < / 2048)%R.
(** The satellite list always consists of the observations of the messages 0, 1, ... of one epoch received in sequence without a gap, and has at most 224 entries. *)
Theorem C50_list_is_a_prefix_of_one_epoch : forall req cs s' os, Forall call_ok cs -> history (init req) cs = Some (s', os) ->
  n_sids s' = flat_map all_sids (in_sequence (obs_calls cs)) /\ one_epoch (in_sequence (obs_calls cs)) /\ subseq (in_sequence (obs_calls cs)) (obs_calls cs) /\ len (n_sids s') <= 224.
Proof.
  intros req cs s' os F E. destruct (run_inv code_of builders eps frame eps_fin eps_range cs _ _ _ [] (init_inv req) F E) as [[SO [SI _]] _].
  fold (in_sequence (obs_calls cs)) in *. split; [exact SI|]. split; [apply SO|]. split.
  - assert (FO : Forall obs_ok (obs_calls cs)). { clear - F. induction F as [|c cs C F IH]; [constructor|]. destruct c; cbn [obs_calls]; try exact IH. constructor; [exact C|exact IH]. }
    destruct (in_sequence_subseq (obs_calls cs) [] FO) as (a & b & EQ & SU & A). unfold in_sequence. rewrite EQ. destruct A as [->| ->]; exact SU.
  - rewrite SI. pose proof (flat_len _ (proj2 SO)). pose proof (seq_len _ SO). lia.
Qed.
(** There is always room: a call with an observation message fails only because a sentence builder fails on the completed list. *)
Theorem C50_capacity : forall req cs s os m, Forall call_ok cs -> history (init req) cs = Some (s, os) -> obs_ok m -> step code_of builders eps s (CObs m) = None ->
  exists t, n_sids t = flat_map all_sids (in_sequence (obs_calls (cs ++ [CObs m]))) /\ len (n_sids t) <= 224 /\ n_slot t = n_slot s /\ check_nmea_send builders t = None.
Proof.
  intros req cs s os m F E O N. destruct (run_inv code_of builders eps frame eps_fin eps_range cs _ _ _ [] (init_inv req) F E) as [IV _]. cbn [NmeaState_model.step] in N.
  destruct (obs_step code_of builders eps frame eps_fin eps_range s _ m IV O) as [(t & (SO & SI & _) & _ & SL & EE)|(t & _ & _ & _ & EE)]; rewrite EE in N; [|discriminate].
  exists t. assert (OC : obs_calls (cs ++ [CObs m]) = obs_calls cs ++ [m]). { clear. induction cs as [|c cs IH]; [reflexivity|]. destruct c; cbn [app obs_calls]; rewrite ?IH; reflexivity. }
  assert (IS : in_sequence (obs_calls (cs ++ [CObs m])) = extend (fold_left extend (obs_calls cs) []) m) by (unfold in_sequence; rewrite OC, fold_left_app; reflexivity).
  rewrite IS. split; [exact SI|]. split; [|split; [exact SL|exact N]]. rewrite SI. pose proof (flat_len _ (proj2 SO)). pose proof (seq_len _ SO). lia.
Qed.
(** GSA sentences are only sent when as many messages have been received in sequence as the last one received announced, and not for observations older than the GPS time. *)
Theorem C50_gsa_when_complete_partial : forall req cs s' os o, Forall call_ok cs -> history (init req) cs = Some (s', os) -> In o os -> o_kind o = GSA ->
  exists cs1 cs2 t, cs = cs1 ++ cs2 /\ option_map snd (builders GSA t) = Some (o_sents o) /\ n_sids t = flat_map all_sids (in_sequence (obs_calls cs1)) /\
    (in_sequence (obs_calls cs1) <> [] -> len (in_sequence (obs_calls cs1)) = last_total 0 (obs_calls cs1)).
Proof.
  intros req cs s' os o F E I K. destruct (emission code_of builders eps frame _ _ _ _ _ E I) as (cs1 & cs2 & t & -> & _ & _ & _ & _ & _ & SN & _ & s0 & SM & RD & s1 & o1 & R1 & SM1).
  exists cs1, cs2, t. rewrite K in *. split; [reflexivity|]. split; [exact SN|]. apply Forall_app in F. destruct F as [F _].
  destruct (run_inv code_of builders eps frame eps_fin eps_range cs1 _ _ _ [] (init_inv req) F R1) as [[SO [SI ST]] LT]. fold (in_sequence (obs_calls cs1)) in *.
  split; [unfold same_but in SM1; decompose [and] SM1; congruence|]. intros NE. apply ready_gsa in RD. destruct RD as [CT _]. cbn [n_seq_total init] in LT.
  assert (Q : n_seq_count s1 = n_seq_total s1 - 1) by (clear - CT SM SM1; unfold same_but in *; decompose [and] SM; decompose [and] SM1; congruence).
  destruct (in_sequence (obs_calls cs1)) as [|m0 ms]; [contradiction|]. lia.
Qed.
End Histories.

(** rate check: with period p and rate r, epochs at k p + j where 0 <= j < p / 2 are sent exactly when r divides k *)
Theorem C46_every_rth_epoch_partial : forall r p f k j, period_ms f = Some p -> 0 < r -> 0 < p -> p * r < 2 ^ 32 -> 0 <= k -> 0 <= j < p / 2 ->
  check_nmea_rate r (k * p + j) f = Some (k mod r =? 0).
Proof.
  intros r p f k j P R PP B K J. unfold check_nmea_rate. replace (r =? 0) with false by lia. rewrite P. cbv zeta. rewrite Z.mod_small by nia. replace (p * r =? 0) with false by nia. f_equal.
  assert (E : (k * p + j) mod (p * r) = (k mod r) * p + j).
  { symmetry. apply Z.mod_unique with (q := k / r); [left|].
    - pose proof (Z.mod_pos_bound k r R). assert (J2 : j < p) by (pose proof (Z.div_lt p 2 ltac:(lia) ltac:(lia)); lia). nia.
    - pose proof (Z.div_mod k r ltac:(lia)). nia. }
  rewrite E. pose proof (Z.mod_pos_bound k r R). destruct (Z.eqb_spec (k mod r) 0) as [->|N].
  - replace (0 * p + j <? p / 2) with true by lia. reflexivity.
  - assert (p / 2 <= p) by (apply Z.div_le_upper_bound; lia). replace (k mod r * p + j <? p / 2) with false; [reflexivity|]. symmetry. apply Z.ltb_ge. nia.
Qed.
(** hence exactly one of any r consecutive epochs of a week *)
Theorem C46_one_in_r_partial : forall r p f n (jitter : Z -> Z), period_ms f = Some p -> 0 < r -> 0 < p -> p * r < 2 ^ 32 -> 0 <= n -> (forall k, 0 <= jitter k < p / 2) ->
  exists k, n <= k < n + r /\ check_nmea_rate r (k * p + jitter k) f = Some true /\ forall k', n <= k' < n + r -> check_nmea_rate r (k' * p + jitter k') f = Some true -> k' = k.
Proof.
  intros r p f n jitter P R PP B N J. exists (r * ((n + r - 1) / r)). pose proof (Z.div_mod (n + r - 1) r ltac:(lia)). pose proof (Z.mod_pos_bound (n + r - 1) r R).
  split; [lia|]. split.
  - rewrite (C46_every_rth_epoch_partial r p f); try assumption; [|lia|apply J]. rewrite Z.mul_comm, Z.mod_mul by lia. reflexivity.
  - intros k' K' C. rewrite (C46_every_rth_epoch_partial r p f) in C by (try assumption; try lia; apply J). injection C as C. apply Z.eqb_eq in C. apply Z.mod_divide in C; [|lia]. destruct C as [q ->].
    set (Q := (n + r - 1) / r) in *. assert (QB : n <= r * Q < n + r) by lia. assert (q = Q) by nia. subst q. lia.
Qed.
(** the period of a solution frequency of n Hz *)
Theorem C46_period : forall n, 1 <= n <= 1000 -> period_ms (fofZ n 0) = Some (1000 / n).
Proof.
  intros n N. assert (L : In n (List.map Z.of_nat (List.seq 1 1000))) by (apply in_map_iff; exists (Z.to_nat n); split; [lia|apply in_seq; lia]).
  assert (A : forallb (fun n => match period_ms (fofZ n 0) with Some p => p =? 1000 / n | None => false end) (List.map Z.of_nat (List.seq 1 1000)) = true) by (vm_compute; reflexivity).
  rewrite forallb_forall in A. specialize (A n L). destruct (period_ms (fofZ n 0)) as [p|]; [|discriminate A]. apply Z.eqb_eq in A. congruence.
Qed.
Example C46_met : period_ms (fofZ 10 0) = Some 100 /\ List.map (fun k => check_nmea_rate 5 (k * 100 + 3) (fofZ 10 0)) [4; 5; 6; 9; 10] = [Some false; Some true; Some false; Some false; Some true].
Proof. split; vm_compute; reflexivity. Qed.
(** an epoch whose time of week is a millisecond early is never sent; at more than 500 Hz none is; at a nominal 0.1 Hz the period is taken as 9999 ms, so that from
    the 5000th epoch on none is for the rest of the week; without a configured frequency, or with more than 1000 Hz, the computation is undefined *)
Theorem C46_early_epochs_refuted : forall k, 1 <= k < 6048000 -> check_nmea_rate 1 (k * 100 - 1) (fofZ 10 0) = Some false.
Proof.
  intros k K. unfold check_nmea_rate. change (1 =? 0) with false. cbv iota. replace (period_ms (fofZ 10 0)) with (Some 100) by (vm_compute; reflexivity). cbv zeta.
  change (100 * 1 mod 2 ^ 32) with 100. change (100 =? 0) with false. cbv iota. change (100 / 2) with 50. f_equal. replace (k * 100 - 1) with (99 + (k - 1) * 100) by lia. rewrite Z.mod_add by lia. reflexivity.
Qed.
Theorem C46_other_refuted : check_nmea_rate 1 1000 (fofZ 1000 0) = Some false /\ check_nmea_rate 1 50000000 (fofbits 0x3dcccccd) = Some false /\
  check_nmea_rate 1 1000 (fofbits 0) = None /\ check_nmea_rate 1 1000 (fofZ 1001 0) = None.
Proof. repeat split; vm_compute; reflexivity. Qed.
(** at the end of the week the count starts again: with every 11th epoch at 1 Hz the last sentence of a week is followed by the next one after 9 s *)
Theorem C46_week_rollover_refuted : check_nmea_rate 11 604791000 (fofZ 1 0) = Some true /\ check_nmea_rate 11 0 (fofZ 1 0) = Some true /\ 604800000 - 604791000 = 9000.
Proof. repeat split; vm_compute; reflexivity. Qed.

(** ** concrete histories *)
(** one epoch of the GNSS solution, another one, and the second again: the first two are sent, completely and once *)
Example C45_met : trace (ex_run mGNSS (setup ++ gnss_epoch 100000 ++ gnss_epoch 100100 ++ gnss_epoch 100100)) =
  Some (kinds_at 100000 [ZDA; GSV; GGA; RMC; VTG; GLL; GST; PUBX] ++ kinds_at 100100 [ZDA; GSV; GGA; RMC; VTG; GLL; GST; PUBX]).
Proof. vm_compute. reflexivity. Qed.
(** a fused epoch whose position message is lost: GGA is sent with the time of the new epoch and the position of the one before *)
Theorem C45_fused_mixed_refuted :
  match ex_run mBEST (setup ++ fused_epoch 100000 ++ without sPOS (fused_epoch 100100)) with
  | Some (s, os) => existsb (fun o => (if kind_eq_dec (o_kind o) GGA then true else false) && (o_tow o =? 100100)) os = true /\
                    s_tow (n_slot s sPOS) = 100000 /\ s_tow (n_slot s sUTC_TIME) = 100100
  | None => False
  end.
Proof. vm_compute. repeat split. Qed.
(** at the switch to the fused solution an epoch that was already sent is sent again when the fused solution lags behind *)
Theorem C45_twice_at_the_switch_refuted : trace (ex_run mBEST (setup ++ gnss_epoch 100000 ++ gnss_epoch 100100 ++ fused_epoch 100000)) =
  Some (kinds_at 100000 [ZDA; GSV; GGA; RMC; VTG; GLL; GST; PUBX] ++ kinds_at 100100 [ZDA; GSV; GGA; RMC; VTG; GLL; GST; PUBX] ++
        kinds_at 100000 [GGA; RMC; VTG; GLL; ZDA; GST; PUBX; THS]).
Proof. vm_compute. reflexivity. Qed.
(** an epoch at time of week 0 is not sent if nothing was sent before *)
Theorem C45_week_start_missed_refuted : trace (ex_run mGNSS (setup ++ gnss_epoch 0)) = Some [].
Proof. vm_compute. reflexivity. Qed.
(** who asks for the fused solution gets the GNSS solution (and nothing if there is none) *)
Theorem C48_fused_request_refuted : trace (ex_run mFUSED (setup ++ fused_epoch 100000)) = Some [] /\
  trace (ex_run mFUSED (setup ++ gnss_epoch 100000 ++ fused_epoch 100000)) = Some (kinds_at 100000 [ZDA; GGA; RMC; VTG; GLL; GST; PUBX]).
Proof. split; vm_compute; reflexivity. Qed.
Theorem C48_fused_request_never_served : forall code_of snd eps cs s os, NmeaState_model.run code_of snd eps (init mFUSED) cs = Some (s, os) ->
    (forall k s t l, snd k s = Some (t, l) -> n_req t = n_req s /\ n_act t = n_act s) -> n_act s = mGNSS.
Proof.
  intros code_of snd eps cs s os E SF.
  assert (SL : forall mt gt f ks s t l, send_loop snd mt gt f ks s = Some (t, l) -> n_req t = n_req s /\ n_act t = n_act s).
  { intros mt gt f ks. induction ks as [|k ks IH]; intros a t l H; cbn [send_loop] in H; [injection H as <- <-; auto|].
    destruct (nmea_ready a k) as [[]|]; [|apply (IH _ _ _ H)|discriminate H]. destruct (check_nmea_rate _ _ _) as [[]|]; [|apply (IH _ _ _ H)|discriminate H].
    destruct (snd k a) as [[s1 x]|] eqn:S1; [|discriminate H]. destruct (send_loop snd mt gt f ks _) as [[s2 y]|] eqn:S2; [|discriminate H]. injection H as <- <-.
    destruct (IH _ _ _ S2) as [I1 I2]. destruct (SF _ _ _ _ S1) as [F1 F2]. cbn [set_last n_req n_act] in I1, I2. split; congruence. }
  assert (SC : forall s t l, check_nmea_send snd s = Some (t, l) -> n_req t = n_req s /\ n_act t = n_act s) by (intros a t l H; unfold check_nmea_send in H; exact (SL _ _ _ _ _ _ _ H)).
  assert (G : forall cs a t l, NmeaState_model.run code_of snd eps a cs = Some (t, l) -> n_req a = mFUSED -> n_act a = mGNSS -> n_req t = mFUSED /\ n_act t = mGNSS).
  { clear E cs s os. induction cs as [|c cs IH]; intros a t l H R A; cbn [NmeaState_model.run] in H; [injection H as <- <-; auto|].
    destruct (step code_of snd eps a c) as [[s1 o1]|] eqn:E1; [|discriminate H]. destruct (NmeaState_model.run code_of snd eps s1 cs) as [[s2 o2]|] eqn:E2; [|discriminate H]. injection H as <- <-.
    assert (S1 : n_req s1 = n_req a /\ n_act s1 = n_act a).
    { destruct c as [id m|m|k r|b|f|x y]; cbn [step] in E1; try (injection E1 as <- <-; split; reflexivity).
      - unfold sbp2nmea in E1. cbv zeta in E1. unfold check_wagon, update_mode in E1. rewrite R, A in E1. cbn [mode_eqb andb] in E1. rewrite A in E1. cbn [mode_eqb negb] in E1.
        destruct (discard _ _ _); [injection E1 as <- <-; auto|]. apply SC in E1. exact E1.
      - unfold sbp2nmea_obs in E1. cbv zeta in E1. destruct (if om_count m =? 0 then _ else _) as [[]|]; [injection E1 as <- <-; split; reflexivity| |discriminate E1].
        destruct (255 <? _); [discriminate E1|]. apply SC in E1. exact E1. }
    destruct S1 as [Q1 Q2]. apply (IH _ _ _ E2); congruence. }
  apply (G cs (init mFUSED) s os E eq_refl eq_refl).
Qed.
Example C48_met :
  match ex_run mBEST (setup ++ gnss_epoch 100000 ++ fused_epoch 100100) with
  | Some (s, os) => n_act s = mFUSED /\ len os = 16
  | None => False
  end.
Proof. vm_compute. repeat split. Qed.
(** the observation list of two messages, and one of a three-message epoch whose last message is lost; GSA is only sent for the first *)
Example C50_met :
  match ex_run mGNSS (setup ++ [ex_obs 100000 2 0 [3; 5]; ex_obs 100000 2 1 [7]] ++ gnss_epoch 100000) with
  | Some (s, os) => n_sids s = [mksig 3 0; mksig 5 0; mksig 7 0] /\ existsb (fun o => if kind_eq_dec (o_kind o) GSA then true else false) os = true /\
    trace (ex_run mGNSS (setup ++ [ex_obs 100000 3 0 [3; 5]; ex_obs 100000 3 1 [7]] ++ gnss_epoch 100000)) = Some (kinds_at 100000 [ZDA; GSV; GGA; RMC; VTG; GLL; GST; PUBX])
  | None => False
  end.
Proof. vm_compute. repeat split. Qed.
(** ... unless a message of the next epoch is received, and rejected, whose total makes the list look complete: GSA lists 3 satellites of a list that misses a message *)
Theorem C50_incomplete_refuted :
  trace (ex_run mGNSS (setup ++ [ex_obs 100000 3 0 [3; 5]; ex_obs 100000 3 1 [7]; ex_obs 100100 2 1 [9]] ++ gnss_epoch 100000)) = Some (kinds_at 100000 [ZDA; GSV; GGA; RMC; VTG; GLL; GSA; GST; PUBX]).
Proof. vm_compute. reflexivity. Qed.
(** observations that are not marked valid are listed as well: the mask looks at a bit that a flags byte does not have *)
Theorem C50_invalid_listed_refuted :
  match ex_run mGNSS [CObs (mkobsm 100000 2200 16 [(mksig 3 0, 0); (mksig 5 0, 15)])] with
  | Some (s, os) => n_sids s = [mksig 3 0; mksig 5 0] /\ os = []
  | None => False
  end.
Proof. vm_compute. repeat split. Qed.

Print Assumptions C45_only_from_its_messages.
Print Assumptions C45_one_epoch_partial.
Print Assumptions C45_not_twice_in_a_row.
Print Assumptions C45_at_most_once_partial.
Print Assumptions C45_complete_epoch_is_sent_partial.
Print Assumptions C46_rate_is_respected.
Print Assumptions C46_rate_zero_disables.
Print Assumptions C48_mode.
Print Assumptions C48_never_back.
Print Assumptions C50_list_is_a_prefix_of_one_epoch.
Print Assumptions C50_capacity.
Print Assumptions C50_gsa_when_complete_partial.
Print Assumptions C46_every_rth_epoch_partial.
Print Assumptions C46_one_in_r_partial.
Print Assumptions C46_period.
Print Assumptions C46_early_epochs_refuted.
Print Assumptions C46_other_refuted.
Print Assumptions C46_week_rollover_refuted.
Print Assumptions C45_fused_mixed_refuted.
Print Assumptions C45_twice_at_the_switch_refuted.
Print Assumptions C45_week_start_missed_refuted.
Print Assumptions C48_fused_request_refuted.
Print Assumptions C48_fused_request_never_served.
Print Assumptions C50_incomplete_refuted.
Print Assumptions C50_invalid_listed_refuted.
