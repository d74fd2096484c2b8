(** C84: sbp2rtcm and rtcm3tosbp as a relay: a mixed history of SBP messages. *)
From Coq Require Import Reals Permutation.
From Flocq Require Import Core IEEE754.Binary IEEE754.Bits.
From Verif Require StaConv_model Conv_model Properties_staconv Properties_ephout Properties_sbpeph Properties_rx Properties_msmval Properties_tunnel.
From Verif Require Import Base Bitstring Bits_model Bitstream_model Double_model Esf_model RtcmEph_model SbpEph_model SbpEph_spec RtcmStation_model RtcmMsm_model RtcmMsm_spec RtcmMsm_proofs Signals_model Sbp2Rtcm_model Sbp2Rtcm_spec
  Sbp2Msm_model Sbp2Msm_spec MsmVal_model MsmVal_spec MsmVal_epoch_proofs RtcmFrameOut_model Conv_model Conv_epoch_proofs Options_model Tunnel_model Tunnel_spec EphOut_model EphOut_spec
  Tables_spec MsmWire_proofs RtcmFraming_model RtcmFraming_spec Properties_framing Time_model Sbp2Rtcm_proofs Properties_sbp2rtcm ObsBuffer_model ObsBuffer_spec ObsExcl_spec ObsExcl_proofs Rx_model Rx_spec Rx_proofs RxTx_model RxTx_spec RxTx_proofs RxTx_frame_proofs Properties_rxtx
  Relay_model Relay_spec Relay_proofs.
Local Open Scope Z_scope.
Local Open Scope list_scope.
Import ListNotations.

(** ** The items are what C28 says: the epochs are those of the assembly machine, the other messages those of the history *)
Theorem C84_items : forall ms st st' l, items st ms = Ok (st', l) ->
  Sbp2Rtcm_model.run st (flat_map event_of ms) = Ok (st', epochs_of l) /\ others_of l = filter (fun m => negb (is_obs m)) ms.
Proof.
  assert (EE : forall es : list Sbp2Rtcm_model.epoch, epochs_of (map IEpoch es) = es /\ others_of (map IEpoch es) = []).
  { induction es as [|e es [I1 I2]]; [split; reflexivity|]. unfold epochs_of, others_of in *. cbn [map flat_map app]. rewrite I1, I2. split; reflexivity. }
  assert (AP : forall a b, epochs_of (a ++ b) = epochs_of a ++ epochs_of b /\ others_of (a ++ b) = others_of a ++ others_of b) by (intros; split; apply flat_map_app).
  induction ms as [|m ms IH]; intros st st' l H; cbn [items] in H; [injection H as <- <-; split; reflexivity|].
  destruct (Sbp2Rtcm_model.run st (event_of m)) as [[st1 es]| | |] eqn:R1; try discriminate H. cbn [bind] in H. destruct (items st1 ms) as [[st2 l2]| | |] eqn:R2; try discriminate H. cbn [bind] in H. injection H as <- <-.
  destruct (IH _ _ _ R2) as [I1 I2]. cbn [flat_map filter]. rewrite Properties_sbp2rtcm.run_app, R1. cbn [bind]. rewrite I1. cbn [bind].
  rewrite (proj1 (AP _ _)), (proj2 (AP _ _)), (proj1 (EE es)), (proj2 (EE es)), (proj1 (AP _ _)), (proj2 (AP _ _)), I2. destruct (is_obs m); split; reflexivity.
Qed.

Section Relay.
Variables (carrier num_of : code -> Z) (code_of : Z -> code) (masked : RtcmMsm_model.cons -> bool) (utc_offset : gtime -> Z) (g : msg_1005) (c : Z -> dbl) (eps : dbl) (log2f : binary32 -> binary32) (adj : Z -> Z) (mw : Z -> Z -> option Z) (sbp_ok : Z -> list Z -> bool) (leap : Z).
Hypothesis CAR : carriers_ok carrier.
Hypothesis NUM : forall k, code_of (num_of k) = k.
Hypothesis CE : consts_exact c.
Hypothesis EO : eps_ok eps.
Hypothesis LO : log2_ok log2f.
Hypothesis LR : 0 <= leap <= 127.
Notation rstate := (rstate pobs (list Z * raux)).
Notation R := (full_rest g c adj mw sbp_ok).
Notation rx_step := (rx_step carrier num_of zero_opts masked utc_offset c R).
Notation rx_run := (rx_run carrier num_of zero_opts masked utc_offset c R).
Notation tool_step := (tool_step carrier code_of c eps log2f leap).
Notation tool_run := (tool_run carrier code_of c eps log2f leap).
Notation frames_of := (out_frames carrier code_of conv_fcns (conv_cfg leap)).
Notation map0 := (repeat 255 29).
Notation in_time := (in_time code_of utc_offset leap).
Notation item_ok := (item_ok code_of adj mw leap).
Notation came := (came carrier code_of sbp_ok masked).

(** *** epochs emit observations only *)
Definition plain (o : out pobs rout) : Prop := match o with OOther _ => False | _ => True end.
Lemma plain_seen (o : list (out pobs rout)) : Forall plain o -> messages o = seen o.
Proof. unfold messages, seen. induction 1 as [|x o P _ IH]; [reflexivity|]. cbn [filter]. rewrite IH. destruct x; try reflexivity. destruct P. Qed.
Lemma send_plain (s s' : rstate) o : send_observations s = Some (s', o) -> Forall plain o.
Proof.
  unfold send_observations. destruct (_ && _); [|discriminate]. intros E. injection E as _ <-. generalize (total_messages (len (r_buf s))) at 1. generalize 0 at 1. generalize (r_buf s) at 2. generalize (Z.to_nat (total_messages (len (r_buf s)))).
  induction n as [|n IH]; intros; cbn [send_loop]; [constructor|]. constructor; [exact I|apply IH].
Qed.
Lemma sanity_plain t r : Forall plain (base_sanity t r).
Proof. unfold base_sanity. destruct (_ && _); repeat constructor. Qed.
Lemma add_plain k m (s s' : rstate) o : add_msm k m s = Some (s', o) -> Forall plain o.
Proof.
  unfold add_msm. destruct (msm_time k (m_tow_ms m) s) as [[[t|] o0]|] eqn:T; [| |discriminate].
  - assert (P0 : Forall plain o0).
    { unfold msm_time in T. destruct k; try (destruct (compute_gps_message_time _ _); [|discriminate T]; injection T as _ <-; apply sanity_plain).
      destruct (snd _) as [t'|]; [|injection T as _ <-; constructor]. destruct (negb _); [injection T as _ <-; constructor|]. destruct (glo_window _ _ _); injection T as _ <-; constructor. }
    destruct (_ && _); [intros E; injection E as _ <-; exact P0|]. cbv zeta. set (s1 := if _ && (0 <? len (r_buf s)) then _ else s). set (s2 := set_last s1 t t t).
    destruct (negb (len (r_buf s2) =? 0) && _).
    + destruct (send_observations s2) as [[s3 o3]|] eqn:SO; [|discriminate]. apply send_plain in SO. destruct (fill_msm _ _) as [b full]. intros E. injection E as _ <-. apply Forall_app. split; [exact P0|]. constructor; [exact I|]. apply Forall_app. split; [exact SO|destruct full; repeat constructor].
    + destruct (fill_msm _ _) as [b full]. intros E. injection E as _ <-. apply Forall_app. split; [exact P0|]. destruct full; repeat constructor.
  - intros E. injection E as _ <-. unfold msm_time in T. destruct k; try (destruct (compute_gps_message_time _ _); [|discriminate T]; injection T as _ <-; apply sanity_plain).
    destruct (snd _) as [t'|]; [|injection T as <-; constructor]. destruct (negb _); [injection T as <-; constructor|]. destruct (glo_window _ _ _); [discriminate T|injection T as <-; constructor].
Qed.
Definition msm47 (p : list Z) : Prop := 2 <= len p /\ 4 <= to_msm_type (message_type p) <= 7.
Lemma rest_msm47 p (s : rstate) : msm47 p -> snd (R (message_type p) p s) = [].
Proof.
  intros [L T]. pose proof (type_num _ _ T eq_refl) as N. unfold full_rest. destruct (snd (r_aux s)) as [last warned].
  rewrite sta_quiet by (cbn [In]; lia). cbn [of_res]. rewrite eph_quiet by (cbn [In]; lia). rewrite tun_quiet; [reflexivity|cbn [In]; lia|].
  destruct (existsb (Z.eqb (message_type p)) msm123) eqn:M; [|reflexivity]. exfalso. apply existsb_exists in M. destruct M as (x & I & E). apply Z.eqb_eq in E. rewrite E in T. unfold msm123 in I. cbn [In] in I.
  repeat (destruct I as [<-|I]; [vm_compute in T; destruct T as [T _]; apply T; reflexivity|]). destruct I.
Qed.
Lemma step_plain tin p (s s' : rstate) o : msm47 p -> rx_step tin p s = Some (s', o) -> Forall plain o.
Proof.
  intros [L T] E. pose proof (type_num _ _ T eq_refl) as N. unfold Rx_model.rx_step in E. destruct (match tin with Some _ => _ | None => false end); [discriminate E|]. unfold decode_payload in E.
  replace (len p <? 2) with false in E by lia. cbv zeta in E. set (s0 := set_time s _) in E. destruct (match tin with Some _ => false | None => _ end); [injection E as _ <-; constructor|].
  set (s1 := match tin with Some t => _ | None => s0 end) in E.
  assert (KK : kind_of (message_type p) = KOther \/ exists k, kind_of (message_type p) = KMsm k).
  { unfold kind_of. replace ((message_type p =? 1002) || (message_type p =? 1004)) with false by lia. replace ((message_type p =? 1010) || (message_type p =? 1012)) with false by lia.
    repeat match goal with |- context[if ?b then _ else _] => destruct b; [right; eexists; reflexivity|] end. left. reflexivity. }
  assert (FIN : forall (r : option (rstate * list (out pobs rout))) (fl : bool), (forall s2 o2, r = Some (s2, o2) -> Forall plain o2) ->
     match r with None => None | Some (s, o) => if fl then match send_observations s with None => None | Some (s, o') => Some (s, o ++ o') end else Some (s, o) end = Some (s', o) -> Forall plain o).
  { clear. intros r fl X E. destruct r as [[s2 o2]|]; [|discriminate E]. specialize (X _ _ eq_refl). destruct fl; [|injection E as _ <-; exact X].
    destruct (send_observations s2) as [[s3 o3]|] eqn:SO; [|discriminate E]. injection E as _ <-. apply Forall_app. split; [exact X|]. eapply send_plain. exact SO. }
  eapply FIN; [|exact E]. clear E FIN. intros s2 o2 X. destruct KK as [K|[k K]]; rewrite K in X.
  - unfold rx_other in X. pose proof (rest_msm47 p s1 (conj L T)) as Q. destruct (R (message_type p) p s1) as [a os]. cbn [snd] in Q. subst os. injection X as _ <-. constructor.
  - destruct (msm_dec _ _ _ _ _ _ _) as [m|]; [eapply add_plain; exact X|injection X as _ <-; constructor].
Qed.
Lemma run_plain ps : Forall msm47 ps -> forall ts (s s' : rstate) o, rx_run (combine ts ps) s = Some (s', o) -> Forall plain o.
Proof.
  induction 1 as [|p ps M _ IH]; intros ts s s' o E; destruct ts as [|t ts]; cbn [combine Rx_model.rx_run] in E; try (injection E as _ <-; constructor).
  destruct (rx_step t p s) as [[s1 o1]|] eqn:E1; [|discriminate E]. destruct (rx_run (combine ts ps) s1) as [[s2 o2]|] eqn:E2; [|discriminate E]. injection E as _ <-. apply Forall_app. split; [eapply step_plain; eassumption|eapply IH; exact E2].
Qed.

(** *** one epoch *)
Lemma map0_ok : fcn_map_ok map0.
Proof. exact conv_map_ok. Qed.
Lemma agree map : maps_agree conv_fcns map.
Proof.
  intros v Hv. right. right. unfold conv_fcns, znth. destruct (nth_in_or_default (Z.to_nat v) (repeat 255 29) 255) as [I|I]; [apply repeat_spec in I; exact I|exact I].
Qed.
Lemma arrived_map m1 m2 e (o : list (out pobs rout)) : arrived carrier code_of 5 conv_fcns m1 masked e o -> arrived carrier code_of 5 conv_fcns m2 masked e o.
Proof.
  intros (ord & opts & P & F & E). exists ord, opts. split; [exact P|]. split; [|exact E]. clear - F. induction F as [|x r ord opts [H1 H2] F IH]; constructor; [|exact IH]. split; [exact H1|]. intros N. specialize (H2 N).
  unfold outcome in *. destruct r as [o'|]; [|exact H2]. destruct H2 as (A & B & (C1 & C2)). split; [exact A|]. split; [exact B|]. split; [|exact C2]. intros V K _. apply C1; [exact V|exact K|]. intros _ Q. discriminate Q.
Qed.
Lemma frames_msm47 e fs : sendable code_of e -> frames_of e = Ok fs -> Forall msm47 (map payload fs).
Proof.
  intros (TOW & OK & RG & _) E. destruct (good_frames carrier num_of code_of masked conv_fcns map0 (conv_cfg leap) leap e CAR NUM conv_map_ok map0_ok (agree _) (or_intror eq_refl) eq_refl ltac:(lia) TOW OK RG) as (ms & EM & _ & F).
  unfold out_frames in E. rewrite EM in E. clear EM. revert fs E. induction F as [|k m cs ms (f & EF & V & HD & dm & ord & opts & B & D & _) F IH]; intros fs E; cbn [map Conv_model.all_ok] in E; [injection E as <-; constructor|].
  rewrite EF in E. cbn [bind] in E. destruct (Conv_model.all_ok _) as [fs'| | |] eqn:E'; try discriminate E. injection E as <-. cbn [map]. constructor; [|apply IH; reflexivity].
  destruct (decoded_facts _ _ _ B D) as (T & TN & L & NU & _). destruct (number_bits _ B ltac:(lia)) as [MT _]. split; [lia|]. rewrite MT, NU, TN. exact T.
Qed.
(** what an item's frames do at the receiver *)
Definition received_at (i : item) (fs : list (list Z)) : Prop :=
  forall ts, Forall (in_time i) ts -> length ts = length fs -> forall s : rstate, fcn_map_ok (fcns s) -> r_buf s = [] ->
  match i with IEpoch e => e_obs e = [] \/ oh_tow (e_hdr e) <> 0 \/ gps_time_valid (r_last_gps s) = true | IMsg _ => True end ->
  exists s' o, rx_run (combine ts (map payload fs)) s = Some (s', o) /\ fcn_map_ok (fcns s') /\ r_buf s' = [] /\ came i (messages o) /\
    (match i with IEpoch e => e_obs e <> [] \/ gps_time_valid (r_last_gps s) = true | IMsg _ => gps_time_valid (r_last_gps s) = true end -> gps_time_valid (r_last_gps s') = true).
Lemma empty_frames e : 0 <= oh_tow (e_hdr e) < WEEK -> e_obs e = [] -> frames_of e = Ok [].
Proof.
  intros TOW Z0. destruct (good_frames carrier num_of code_of masked conv_fcns map0 (conv_cfg leap) leap e CAR NUM conv_map_ok map0_ok (agree _) (or_intror eq_refl) eq_refl ltac:(lia) TOW) as (ms & EM & _ & F); rewrite Z0 in *.
  - split; [constructor|]. split; [constructor|]. intros k. split; vm_compute; discriminate.
  - constructor.
  - unfold out_frames. rewrite EM. inversion F. reflexivity.
Qed.
Lemma epoch_item e : item_ok (IEpoch e) -> exists fs, frames_of e = Ok fs /\ Forall valid_frame fs /\ received_at (IEpoch e) fs.
Proof.
  intros [TW [Z0|SE]].
  - exists []. split; [apply empty_frames; assumption|]. split; [constructor|]. intros ts _ LT s FM B _. destruct ts; [|discriminate LT]. exists s, []. split; [reflexivity|]. split; [exact FM|]. split; [exact B|]. split; [cbn [Relay_spec.came]; rewrite Z0; reflexivity|]. intros [N|N]; congruence.
  - destruct (one_epoch carrier num_of code_of masked utc_offset c R CAR NUM conv_fcns map0 (conv_cfg leap) leap conv_map_ok map0_ok (agree _) (or_intror eq_refl) eq_refl ltac:(lia) e SE) as (fs & E & V & _).
    exists fs. split; [exact E|]. split; [exact V|]. intros ts F LT s FM B X0.
    assert (NE : e_obs e <> []) by (destruct SE as (_ & _ & _ & _ & N); intros Q; rewrite Q in N; inversion N).
    destruct (one_epoch carrier num_of code_of masked utc_offset c R CAR NUM conv_fcns (fcns s) (conv_cfg leap) leap conv_map_ok FM (agree _) (or_intror eq_refl) eq_refl ltac:(lia) e SE) as (fs' & E' & _ & _ & RE).
    assert (fs' = fs) by congruence. subst fs'.
    assert (TS : exists refs, ts = map Some refs /\ Forall (in_step utc_offset leap (has_glo code_of (e_obs e)) (epoch_ms e)) refs).
    { clear - F. induction F as [|t ts (ref & -> & P) F (refs & -> & FR)]; [exists []; split; [reflexivity|constructor]|]. exists (ref :: refs). split; [reflexivity|constructor; assumption]. }
    destruct TS as (refs & -> & FR). rewrite map_length in LT.
    destruct (RE refs FR LT s eq_refl B) as (s' & o & ER & B' & FE & LA & AR); [destruct X0 as [X0|X0]; [contradiction|exact X0]|].
    exists s', o. split; [exact ER|]. split; [rewrite FE; exact FM|]. split; [exact B'|]. split.
    + rewrite (plain_seen o) by (eapply run_plain; [exact (frames_msm47 e fs SE E)|exact ER]). cbn [Relay_spec.came]. destruct (e_obs e) as [|? ?]; [congruence|]. eapply arrived_map. exact AR.
    + intros _. destruct LA as (V1 & _ & V2 & _). rewrite V2. exact V1.
Qed.
Lemma msg_item m st : is_obs m = false -> item_ok (IMsg m) -> exists fs, tool_step m st = Ok (after m st, fs) /\ Forall valid_frame fs /\ received_at (IMsg m) fs.
Proof.
  intros O OK. destruct (one_msg carrier num_of code_of masked utc_offset g c eps log2f adj mw sbp_ok leap CE EO LO LR m st O OK) as (fs & E & V & C).
  exists fs. split; [exact E|]. split; [exact V|]. intros ts F LT s FM B _. destruct (C ts F LT s FM) as (s' & o & ER & UD & FM' & BC). exists s', o. split; [exact ER|]. split; [exact FM'|]. destruct UD as (U1 & _ & _ & _ & U5 & _).
  split; [congruence|]. split; [exact BC|]. intros H. congruence.
Qed.

(** *** the tool *)
Definition written (i : item) (fs : list (list Z)) : Prop := match i with IEpoch e => frames_of e = Ok fs | IMsg m => exists a a', tool_step m a = Ok (a', fs) end.
Lemma tool_items ms : forall st st' l, items st ms = Ok (st', l) -> Forall item_ok l ->
  exists fss, tool_run st ms = Ok (st', concat fss) /\ Forall2 (fun i fs => written i fs /\ Forall valid_frame fs /\ received_at i fs) l fss.
Proof.
  assert (EP : forall es, Forall item_ok (map IEpoch es) -> exists fss, Conv_model.all_ok (map frames_of es) = Ok fss /\
    Forall2 (fun i fs => written i fs /\ Forall valid_frame fs /\ received_at i fs) (map IEpoch es) fss).
  { induction es as [|e es IH]; intros F; [exists []; split; [reflexivity|constructor]|]. inversion F as [|? ? F1 F2]; subst. destruct (IH F2) as (fss & E & G). destruct (epoch_item e F1) as (fs & E1 & V1 & R1).
    exists (fs :: fss). cbn [map Conv_model.all_ok]. rewrite E1. cbn [bind]. rewrite E. split; [reflexivity|]. constructor; [split; [exact E1|split; [exact V1|exact R1]]|exact G]. }
  induction ms as [|m ms IH]; intros st st' l H F; cbn [items] in H; [injection H as <- <-; exists []; split; [reflexivity|constructor]|].
  destruct (Sbp2Rtcm_model.run st (event_of m)) as [[st1 es]| | |] eqn:R1; try discriminate H. cbn [bind] in H. destruct (items st1 ms) as [[st2 l2]| | |] eqn:R2; try discriminate H. cbn [bind] in H. injection H as <- <-.
  apply Forall_app in F. destruct F as [F1 F]. apply Forall_app in F. destruct F as [F2 F3]. destruct (IH _ _ _ R2 F3) as (fss3 & T3 & G3). cbn [Relay_model.tool_run].
  destruct (is_obs m) eqn:O.
  - destruct (EP es F1) as (fss & E & G). exists (fss ++ fss3).
    assert (TS : tool_step m st = Ok (st1, concat fss)).
    { unfold is_obs, event_of in O, R1. unfold Relay_model.tool_step. destruct (i_body m); try discriminate O. cbn [Sbp2Rtcm_model.run Sbp2Rtcm_model.step] in R1. destruct (obs_cb st (i_sender m) p) as [[sa ea]| | |]; try discriminate R1. cbn [bind] in R1 |- *. injection R1 as <- <-.
      rewrite app_nil_r in E. rewrite E. reflexivity. }
    rewrite TS. cbn [bind]. rewrite T3. cbn [bind]. rewrite concat_app. split; [reflexivity|]. apply Forall2_app; [exact G|exact G3].
  - pose proof (run_after m st O) as RA. rewrite RA in R1. injection R1 as <- <-. inversion F2 as [|? ? OK _]; subst. destruct (msg_item m st O OK) as (fs & E & V & RX).
    exists (fs :: fss3). rewrite E. cbn [bind]. rewrite T3. split; [reflexivity|]. constructor; [split; [eexists; eexists; exact E|auto]|exact G3].
Qed.
Lemma relay_items l fss : Forall2 (fun i fs => written i fs /\ Forall valid_frame fs /\ received_at i fs) l fss ->
  forall tss, Forall2 (fun i ts => Forall (in_time i) ts) l tss -> Forall2 (fun (ts : list (option gtime)) (fs : list (list Z)) => length ts = length fs) tss fss ->
  forall s : rstate, fcn_map_ok (fcns s) -> r_buf s = [] -> first_epoch_ok l \/ gps_time_valid (r_last_gps s) = true ->
  exists s' o gs, rx_run (combine (concat tss) (map payload (concat fss))) s = Some (s', o) /\ messages o = concat gs /\ Forall2 came l gs.
Proof.
  induction 1 as [|i fs l fss (_ & _ & RX) G IH]; intros tss I L s FM B X0; inversion I as [|? ts ? tss' I1 I2]; subst.
  - exists s, [], []. split; [reflexivity|]. split; [reflexivity|constructor].
  - inversion L as [|? ? ? ? L1 L2]; subst. destruct (RX ts I1 L1 s FM B) as (s1 & o1 & E1 & F1 & B1 & C1 & V1).
    { destruct i as [e|m]; [|exact Logic.I]. destruct X0 as [X0|X0]; [|right; right; exact X0]. destruct (e_obs e) eqn:Q; [left; reflexivity|]. right. left. apply (X0 [] e l eq_refl); [constructor|rewrite Q; discriminate]. }
    destruct (IH tss' I2 L2 s1 F1 B1) as (s2 & o2 & gs & E2 & M2 & C2).
    { assert (ST : (forall e', i = IEpoch e' -> e_obs e' = []) -> first_epoch_ok (i :: l) -> first_epoch_ok l).
      { intros ZE FO pre e post -> FP NE. apply (FO (i :: pre) e post eq_refl); [|exact NE]. unfold epochs_of. cbn [flat_map]. destruct i as [e'|m']; [constructor; [apply ZE; reflexivity|exact FP]|exact FP]. }
      destruct i as [e|m].
      - destruct (e_obs e) eqn:Q; [|right; apply V1; left; discriminate]. destruct X0 as [X0|X0].
        + left. apply ST; [|exact X0]. intros e' Ee. injection Ee as <-. exact Q.
        + right. apply V1. right. exact X0.
      - destruct X0 as [X0|X0]; [left; apply ST; [discriminate|exact X0]|right; apply V1; exact X0]. }
    exists s2, (o1 ++ o2), (messages o1 :: gs). split; [|split].
    + cbn [concat]. rewrite !map_app. rewrite combine_app by (rewrite map_length; exact L1). eapply Rx_proofs.run_app; eassumption.
    + unfold messages in *. rewrite filter_app, M2. reflexivity.
    + constructor; assumption.
Qed.
End Relay.

(** ** the history through both tools *)
(** Any history of SBP messages that can be converted - observations, base positions, biases, GPS, BeiDou, Galileo and GLONASS ephemerides, OSR, SSR and log messages, and messages that are not
    converted, in any order and of any senders - given to sbp2rtcm from any state of its epoch assembly, becomes valid frames, item by item; and rtcm3tosbp, given these frames as
    bytes in pieces of any size and with garbage in between, sends for every item what it has to ([came]), in the order of the items, and nothing else.
    [tss]: the receiver's time at each frame of each item. *)
Theorem C84_relay_partial : forall carrier num_of code_of masked utc_offset g c eps log2f adj mw sbp_ok leap ms st st' l,
  carriers_ok carrier -> (forall k, code_of (num_of k) = k) -> consts_exact c -> eps_ok eps -> log2_ok log2f -> 0 <= leap <= 127 ->
  items st ms = Ok (st', l) -> Forall (item_ok code_of adj mw leap) l -> first_epoch_ok l ->
  exists fss, tool_run carrier code_of c eps log2f leap st ms = Ok (st', concat fss) /\ Forall2 (written carrier code_of c eps log2f leap) l fss /\ Forall valid_frame (concat fss) /\
  forall chunks tss, Forall good_read chunks -> garbage_separated (concat fss) (concat chunks) ->
  Forall2 (fun i ts => Forall (in_time code_of utc_offset leap i) ts) l tss -> Forall2 (fun (ts : list (option gtime)) (fs : list (list Z)) => length ts = length fs) tss fss ->
  exists s' o gs, rx_bytes carrier num_of zero_opts masked utc_offset c (full_rest g c adj mw sbp_ok) chunks (concat tss) (rx_init raux0) = Some (s', o) /\
    messages o = concat gs /\ Forall2 (came carrier code_of sbp_ok masked) l gs.
Proof.
  intros carrier num_of code_of masked utc_offset g c eps log2f adj mw sbp_ok leap ms st st' l CAR NUM CE EO LO LR I F FE.
  destruct (tool_items carrier num_of code_of masked utc_offset g c eps log2f adj mw sbp_ok leap CAR NUM CE EO LO LR ms st st' l I F) as (fss & T & G).
  exists fss. split; [exact T|]. split; [|split].
  - clear - G. induction G as [|i fs l fss (W & _) G IH]; constructor; assumption.
  - clear - G. induction G as [|i fs l fss (_ & V & _) G IH]; cbn [concat]; [constructor|]. apply Forall_app. split; assumption.
  - intros chunks tss GR GS IT LN. destruct (C03_every_frame_delivered chunks (concat fss) GR GS) as (r & E).
    destruct (relay_items carrier num_of code_of masked utc_offset g c eps log2f adj mw sbp_ok leap l fss G tss IT LN (rx_init raux0) map0_ok eq_refl (or_introl FE)) as (s' & o & gs & ER & M & C).
    exists s', o, gs. split; [|split; assumption]. unfold rx_bytes. rewrite E. exact ER.
Qed.

(** ** A concrete history: everything from station 0x1234 *)
Import Properties_msmval.
Definition ex_payload : list Z := mk_payload 345600200 2190 16 ex_obs.
Definition ex_gps : skeph := match Properties_ephout.some_week 0 0 with Some _ => match gps_eph_to_sbp Properties_sbpeph.two_pow (fun w => w) Properties_ephout.some_week Properties_ephout.gps_msg with Some s => s | None => Properties_ephout.late_clock end | None => Properties_ephout.late_clock end.
Definition ex_bodies : list body :=
  [BBase Properties_staconv.pos_x Properties_staconv.pos_y Properties_staconv.pos_z; BObs ex_payload; BRaw 1025 [3; 72; 105]; BBias 9 (-735) 0 0 700; BGps ex_gps; BRaw 1501 [1; 2; 3; 255]; BIgnored; BObs ex_payload; BRaw 1025 [7]].
Definition ex_messages : list sbpin := map (mkin 0x1234) ex_bodies.
Definition ex_start : Sbp2Rtcm_model.ost := Sbp2Rtcm_model.init 0x1234 (mkohdr 0 0 0 0).
Definition ex_start_after : Sbp2Rtcm_model.ost := Sbp2Rtcm_model.mkost 0x1234 (mkohdr 345600200 0 2190 16) [].
Definition ex_items : list item := match items ex_start ex_messages with Ok (_, l) => l | _ => [] end.
Definition ex_time : gtime := mkt 2190 345582200.

Lemma ex_gps_ok : body_ok (fun w => w) Properties_ephout.some_week 18 0x1234 (BGps ex_gps).
Proof.
  destruct Properties_ephout.C76_gps_example as (s & E & R & U & T & W & M). assert (Q : ex_gps = s) by (unfold ex_gps; rewrite E; reflexivity). rewrite Q.
  split; [exact R|]. split; [exists 2; split; [lia|exact U]|]. split; [exact T|]. split; [|exact M].
  clear - E. unfold gps_eph_to_sbp in E. destruct (Properties_ephout.some_week _ _); [|discriminate E]. injection E as <-. reflexivity.
Qed.
Example C84_nonvacuous : items ex_start ex_messages = Ok (ex_start_after, ex_items) /\ Forall (item_ok ex_code_of (fun w => w) Properties_ephout.some_week 18) ex_items /\ first_epoch_ok ex_items /\
  Forall (fun i => in_time ex_code_of Properties_rx.ex_utc 18 i (Some ex_time)) ex_items.
Proof.
  assert (EI : ex_items = [IMsg (mkin 0x1234 (BBase Properties_staconv.pos_x Properties_staconv.pos_y Properties_staconv.pos_z)); IEpoch ex_epoch; IMsg (mkin 0x1234 (BRaw 1025 [3; 72; 105])); IMsg (mkin 0x1234 (BBias 9 (-735) 0 0 700));
    IMsg (mkin 0x1234 (BGps ex_gps)); IMsg (mkin 0x1234 (BRaw 1501 [1; 2; 3; 255])); IMsg (mkin 0x1234 BIgnored); IEpoch ex_epoch; IMsg (mkin 0x1234 (BRaw 1025 [7]))]).
  { unfold ex_items, ex_messages, ex_bodies. generalize ex_gps. generalize Properties_staconv.pos_x Properties_staconv.pos_y Properties_staconv.pos_z. intros x y z s. vm_compute. reflexivity. }
  assert (ES : sendable ex_code_of ex_epoch) by exact Properties_rxtx.ex_sendable. assert (TW : 0 <= oh_tow (e_hdr ex_epoch) < WEEK) by (unfold WEEK; cbn; lia).
  assert (GT : good_time Properties_rx.ex_utc ex_time) by (unfold good_time, Properties_rx.ex_utc, ex_time, WEEK; cbn [wn tow]; lia).
  destruct Properties_staconv.ex_history_ok as (_ & X & Y & Z0). pose proof ex_gps_ok as EG.
  split; [|split; [|split]].
  - rewrite EI. unfold ex_messages, ex_bodies, ex_start_after. generalize ex_gps. generalize Properties_staconv.pos_x Properties_staconv.pos_y Properties_staconv.pos_z. intros x y z s. vm_compute. reflexivity.
  - rewrite EI. repeat apply Forall_cons; try apply Forall_nil; cbn [item_ok i_sender i_body].
    + cbn [body_ok]. auto.
    + auto.
    + cbn [body_ok]. left. unfold Tunnel_spec.wf_sbp, RtcmStation_spec.ubits. cbn. repeat split; try lia; try (right; lia); repeat constructor; unfold byte; lia.
    + cbn [body_ok]. unfold StaConv_spec.s16. lia.
    + exact EG.
    + cbn [body_ok]. left. exact (proj1 Properties_tunnel.C69_example).
    + exact Logic.I.
    + auto.
    + cbn [body_ok]. right. split; [reflexivity|cbn; lia].
  - rewrite EI. intros pre e post Q _ _. assert (I : In (IEpoch e) (pre ++ IEpoch e :: post)) by (apply in_or_app; right; left; reflexivity). rewrite <- Q in I. cbn [In] in I.
    repeat (destruct I as [I|I]; [try discriminate I; injection I as <-; discriminate|]). destruct I.
  - rewrite EI. repeat apply Forall_cons; try apply Forall_nil; cbn [in_time i_body];
      try (split; [intros ref R; injection R as <-; exact GT|first [exact Logic.I|discriminate]]);
      (exists ex_time; split; [reflexivity|]; unfold in_step; split; [exact GT|]; unfold plausible, at_ms, epoch_ms, ex_time, Properties_rx.ex_utc, WEEK; cbn; repeat split; lia).
Qed.
(** a shorter one, computed: the values of the observations are those of C82_result except that of the GLONASS satellite *)
Definition ex_through (bs : list body) : option (list (out pobs rout)) :=
  match tool_run ex_carrier ex_code_of (fun _ => d0) d0 (fun x => x) 18 ex_start (map (mkin 0x1234) bs) with
  | Ok (_, fs) => option_map snd (rx_run ex_carrier ex_num_of zero_opts (fun _ => false) Properties_rx.ex_utc (fun _ => d0) (full_rest Properties_staconv.g0 (fun _ => d0) (fun w => w) Properties_ephout.some_week (fun _ _ => true))
      (map (fun f => (Some ex_time, payload_of f)) fs) (rx_init raux0))
  | _ => None
  end.

Definition short : list body := [BObs ex_payload; BRaw 1025 [3; 72; 105]; BBias 9 (-735) 0 0 700; BRaw 1501 [1; 2; 3; 255]; BIgnored; BRaw 1025 [7]].
Example C84_result : ex_through short = Some
  [OObs 62132 2190 345600200 16 [mkpobs 1061728394 111588407 107 3217 229 180 9 15 5 0; mkpobs 1061728562 86952019 117 2507 115 160 9 15 5 6; mkpobs 1200006172 126121499 250 (-1752) 127 172 5 11 12 0;
     mkpobs 999999975 0 0 0 0 200 12 1 7 16];
   OOther (RTun (TLog 62132 6 [82; 84; 67; 77; 58; 32; 72; 105])); OOther (RSta (StaConv_model.SGloBiases 62132 9 (-735) 0 0 700)); OOther (RTun (TSbp 0x1234 1501 [1; 2; 3; 255]))].
Proof. vm_compute. reflexivity. Qed.
(** finding: the GLONASS phase and Doppler that the observation message had are not in what is received, although rtcm3tosbp hands them on when they are sent (C82_result):
    the sender needs the channel numbers of the GLONASS satellites and the tool sbp2rtcm never supplies any *)
Theorem C84_glonass_phases_lost_refuted : exists o o', In o ex_obs /\ (o_flags o = 15 /\ cons_of (ex_code_of (o_code o)) = Some cGLO) /\
  (exists s w x n l rest, ex_through short = Some (OObs s w x n l :: rest) /\ In o' l) /\ o_sat o' = o_sat o /\ o_code o' = o_code o /\ o_P o' = o_P o /\ o_flags o' = 1 /\ o_Li o' = 0 /\ o_Di o' = 0.
Proof.
  exists (mkpobs 999999975 106911459 99 (-5354) 104 200 12 15 7 16), (mkpobs 999999975 0 0 0 0 200 12 1 7 16). split; [unfold ex_obs; cbn; tauto|]. split; [split; reflexivity|].
  split; [rewrite C84_result; do 6 eexists; split; [reflexivity|cbn; tauto]|]. repeat split.
Qed.
Print Assumptions C84_items.
Print Assumptions C84_relay_partial.
Print Assumptions C84_nonvacuous.
Print Assumptions C84_result.
Print Assumptions C84_glonass_phases_lost_refuted.
