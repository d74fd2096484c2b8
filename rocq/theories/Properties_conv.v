(** C75: the library entry point sbp_conv: the RTCM bytes of the messages passed in come back complete and in order. *)
From Verif Require Import Base Bitstring Bits_model Double_model RtcmMsm_model Signals_model Sbp2Rtcm_model Sbp2Msm_model MsmVal_model RtcmFrameOut_model Tunnel_model Conv_model
  Properties_msmval.
From Coq Require Import Permutation.
From Verif Require Import Bitstream_model RtcmFraming_model RtcmFraming_spec Sbp2Msm_spec MsmVal_spec StaConv_spec StaConv_wire_proofs Conv_epoch_proofs.
From Verif Require Properties_sbp2rtcm.

(** ** the FIFO *)
Lemma conv_write_fits fifo buf : len fifo + len buf <= 2048 -> conv_write fifo buf = fifo ++ buf.
Proof. intros H. unfold conv_write, CONV_FIFO_SIZE. rewrite take_all by lia. reflexivity. Qed.
Lemma writes_fit : forall bufs fifo, len fifo + len (concat bufs) <= 2048 -> fold_left conv_write bufs fifo = fifo ++ concat bufs.
Proof.
  induction bufs as [|b bufs IH]; intros fifo H; cbn [fold_left concat] in *; [rewrite app_nil_r; reflexivity|].
  rewrite len_app in H. pose proof (len_nonneg (concat bufs)). rewrite conv_write_fits by lia. rewrite IH by (rewrite len_app; lia). rewrite app_assoc. reflexivity.
Qed.
Lemma write_bound fifo b : len fifo <= 2048 -> len (conv_write fifo b) <= 2048.
Proof. intros H. unfold conv_write, CONV_FIFO_SIZE. rewrite len_app, len_take. pose proof (len_nonneg b). lia. Qed.
Lemma writes_bound : forall bufs fifo, len fifo <= 2048 -> len (fold_left conv_write bufs fifo) <= 2048.
Proof. induction bufs as [|b bufs IH]; intros fifo H; cbn [fold_left]; [exact H|]. apply IH. apply write_bound. exact H. Qed.
Lemma read_parts n fifo out fifo' : 0 <= n -> conv_read n fifo = (out, fifo') -> out ++ fifo' = fifo /\ len out = Z.min n (len fifo).
Proof. intros N E. unfold conv_read in E. injection E as <- <-. split; [apply take_drop|]. rewrite len_take. pose proof (len_nonneg fifo). lia. Qed.

Lemma take_rbuf (l : list Z) : len l <= 255 -> take (len l mod 256) l = l.
Proof. intros H. pose proof (len_nonneg l). rewrite Z.mod_small by lia. apply take_all. lia. Qed.

(** ** what the converter writes, without a limit on the buffer: per call, the concatenation of the buffers of the callback *)
Section Direct.
Context {S : Type} (handle : Z -> Z -> list Z -> S -> res (S * list (list Z))).
Fixpoint direct (s : S) (cs : list call) : res (S * list (list Z)) :=
  match cs with
  | [] => Ok (s, [])
  | c :: cs => bind (if existsb (Z.eqb (c_ty c)) converted then handle (c_ty c) (c_sender c) (c_rbuf c) s else Ok (s, [])) (fun '(s, bufs) =>
               bind (direct s cs) (fun '(s, ws) => Ok (s, concat bufs :: ws)))
  end.
(** an SBP payload has at most 255 bytes; wlen is a 32-bit size *)
Definition sbp_call (c : call) : Prop := len (c_rbuf c) <= 255 /\ 0 <= c_wlen c < 2 ^ 32.
(** the bytes written by the first calls, the last of them included, minus the bytes returned before the last of them *)
Definition backlog (ws outs : list (list Z)) (k : Z) : Z := len (concat (take k ws)) - len (concat (take (k - 1) outs)).

Lemma run_exact : forall cs s fifo s' ws s'' fifo' outs, Forall sbp_call cs -> len fifo <= 2048 ->
  direct s cs = Ok (s', ws) -> conv_run handle (s, fifo) cs = Ok (s'', fifo', outs) ->
  (forall k, 1 <= k <= len cs -> len fifo + backlog ws outs k <= 2048) ->
  s'' = s' /\ concat outs ++ fifo' = fifo ++ concat ws /\ Forall2 (fun c out => len out <= c_wlen c) cs outs.
Proof.
  induction cs as [|c cs IH]; intros s fifo s' ws s'' fifo' outs F B D R K; cbn [direct conv_run] in D, R.
  - injection D as <- <-. injection R as <- <- <-. cbn [concat app]. rewrite app_nil_r. auto.
  - inversion F as [|? ? (C1 & C2) F']; subst. unfold conv_step in R. rewrite (take_rbuf _ C1) in R.
    destruct (if existsb (Z.eqb (c_ty c)) converted then handle (c_ty c) (c_sender c) (c_rbuf c) s else Ok (s, [])) as [[s1 bufs]| | |] eqn:H; try discriminate D.
    cbn [bind] in D, R. destruct (direct s1 cs) as [[s2 ws']| | |] eqn:D1; try discriminate D. cbn [bind] in D. injection D as <- <-.
    rewrite (Z.mod_small _ _ C2) in R. destruct (conv_read (c_wlen c) (fold_left conv_write bufs fifo)) as [out f1] eqn:RD. cbn [bind] in R.
    destruct (conv_run handle (s1, f1) cs) as [[[s3 f3] os]| | |] eqn:R1; try discriminate R. cbn [bind] in R. injection R as <- <- <-.
    assert (L1 : len fifo + len (concat bufs) <= 2048).
    { specialize (K 1). unfold backlog in K. rewrite len_cons in K. pose proof (len_nonneg cs). change (take 1 (concat bufs :: ws')) with [concat bufs] in K. cbn [concat] in K.
      change (take (1 - 1) (out :: os)) with (@nil (list Z)) in K. cbn [concat] in K. change (len (@nil Z)) with 0 in K. rewrite app_nil_r in K. specialize (K ltac:(lia)). lia. }
    rewrite writes_fit in RD by exact L1. apply read_parts in RD; [|lia]. destruct RD as (RE & RL).
    pose proof (f_equal len RE) as RE'. rewrite !len_app in RE'. pose proof (len_nonneg out).
    destruct (IH s1 f1 s2 ws' s3 f3 os F') as (-> & E & G); [lia|exact D1|exact R1| |].
    + intros k Hk. specialize (K (k + 1)). unfold backlog in *. rewrite len_cons in K. specialize (K ltac:(lia)). rewrite !take_cons in K by lia. replace (k + 1 - 1) with k in K by ring.
      cbn [concat] in K. rewrite !len_app in K. lia.
    + split; [reflexivity|]. split; [|constructor; [rewrite RL; lia|exact G]]. cbn [concat]. rewrite <- app_assoc, E, app_assoc, RE, <- app_assoc. reflexivity.
Qed.

(** Whatever the callbacks do (they are a parameter): as long as the bytes waiting after a message was converted never exceed 2048, the returned
    bytes are exactly the bytes the converter writes, in order, nothing lost and nothing inserted; what has not been returned yet is what
    later calls return first.  No call returns more than it was given room for.  Partial: the limit (refuted below). *)
Theorem C75_bytes_returned_in_order_partial : forall cs s s' ws s'' fifo outs, Forall sbp_call cs ->
  direct s cs = Ok (s', ws) -> conv_run handle (s, []) cs = Ok (s'', fifo, outs) -> (forall k, 1 <= k <= len cs -> backlog ws outs k <= 2048) ->
  s'' = s' /\ concat outs ++ fifo = concat ws /\ Forall2 (fun c out => len out <= c_wlen c) cs outs.
Proof. intros cs s s' ws s'' fifo outs F D R K. apply (run_exact cs s [] s' ws s'' fifo outs F); [discriminate|exact D|exact R|]. intros k Hk. change (len (@nil Z)) with 0. apply K in Hk. lia. Qed.

(** With room for 2048 bytes in every call and at most 2048 bytes written per call, each call returns exactly its own bytes. *)
Theorem C75_each_call_returns_its_bytes_partial : forall cs s s' ws, Forall sbp_call cs -> Forall (fun c => 2048 <= c_wlen c) cs ->
  direct s cs = Ok (s', ws) -> Forall (fun w => len w <= 2048) ws -> conv_run handle (s, []) cs = Ok (s', [], ws).
Proof.
  induction cs as [|c cs IH]; intros s s' ws F W D L; cbn [direct conv_run] in *.
  - injection D as <- <-. reflexivity.
  - inversion F as [|? ? (C1 & C2) F']; subst. inversion W as [|? ? W1 W']; subst. unfold conv_step. rewrite (take_rbuf _ C1).
    destruct (if existsb (Z.eqb (c_ty c)) converted then handle (c_ty c) (c_sender c) (c_rbuf c) s else Ok (s, [])) as [[s1 bufs]| | |]; try discriminate D.
    cbn [bind] in D |- *. destruct (direct s1 cs) as [[s2 ws']| | |] eqn:D1; try discriminate D. cbn [bind] in D. injection D as <- <-. inversion L as [|? ? L1 L']; subst.
    rewrite writes_fit by (change (len (@nil Z)) with 0; lia). cbn [app]. rewrite Z.mod_small by exact C2. unfold conv_read. rewrite take_all, drop_all by lia. cbn [bind].
    rewrite (IH s1 s2 ws' F' W' D1 L'). reflexivity.
Qed.
(** The buffer never overflows, for every history. *)
Theorem C75_buffer_bounded : forall cs s fifo s' fifo' outs, Forall sbp_call cs -> len fifo <= 2048 -> conv_run handle (s, fifo) cs = Ok (s', fifo', outs) -> len fifo' <= 2048.
Proof.
  induction cs as [|c cs IH]; intros s fifo s' fifo' outs F B R; cbn [conv_run] in R; [injection R as <- <- <-; exact B|]. inversion F as [|? ? (C1 & C2) F']; subst.
  unfold conv_step in R. destruct (if existsb _ _ then _ else _) as [[s1 bufs]| | |]; try discriminate R. cbn [bind] in R. rewrite (Z.mod_small _ _ C2) in R.
  destruct (conv_read (c_wlen c) (fold_left conv_write bufs fifo)) as [out f1] eqn:RD. cbn [bind] in R.
  destruct (conv_run handle (s1, f1) cs) as [[[s3 f3] os]| | |] eqn:R1; try discriminate R. injection R as <- <- <-. eapply IH; [exact F'| |exact R1].
  apply read_parts in RD; [|lia]. destruct RD as (RE & _). pose proof (f_equal len RE) as Q. rewrite len_app in Q. pose proof (writes_bound bufs fifo B). pose proof (len_nonneg out). lia.
Qed.
(** Messages of other types change nothing and only fetch waiting bytes. *)
Theorem C75_other_types_ignored : forall s fifo sender ty rbuf wlen, ~ In ty [72; 74; 137; 138; 139; 141; 1025; 1501; 1505; 1510; 1525; 1530; 1531; 1600] -> 0 <= wlen < 2 ^ 32 ->
  conv_step handle (s, fifo) sender ty rbuf wlen = Ok (s, drop (Z.min wlen (len fifo)) fifo, take (Z.min wlen (len fifo)) fifo).
Proof.
  intros s fifo sender ty rbuf wlen N W. unfold conv_step. replace (existsb (Z.eqb ty) converted) with false.
  - cbn [bind fold_left]. rewrite Z.mod_small by exact W. reflexivity.
  - symmetry. destruct (existsb (Z.eqb ty) converted) eqn:E; [|reflexivity]. exfalso. apply N. apply existsb_exists in E. destruct E as (x & Hx & E). apply Z.eqb_eq in E. subst x.
    cbn [converted In] in Hx. cbn [In]. revert Hx. clear. unfold SBP_MSG_BASE_POS_ECEF, SBP_MSG_OBS, SBP_MSG_OSR, SBP_MSG_SSR_ORBIT_CLOCK, SBP_MSG_SSR_PHASE_BIASES, SBP_MSG_SSR_CODE_BIASES,
      SBP_MSG_SSR_GRIDDED_CORRECTION_DEP_A, SBP_MSG_SSR_GRID_DEFINITION_DEP_A, SBP_MSG_SSR_STEC_CORRECTION_DEP_A, SBP_MSG_EPHEMERIS_GPS, SBP_MSG_EPHEMERIS_GLO, SBP_MSG_EPHEMERIS_BDS, SBP_MSG_EPHEMERIS_GAL, SBP_MSG_LOG. lia.
Qed.
End Direct.

(** ** wrapped messages: every call returns its frame *)
Lemma tunnelled_types ty : In ty [1025; 1501; 1505; 1510; 1525; 1530; 1531; 1600] -> existsb (Z.eqb ty) converted = true /\ (ty =? SBP_MSG_OBS) = false /\
  existsb (Z.eqb ty) [SBP_MSG_BASE_POS_ECEF; SBP_MSG_EPHEMERIS_GPS; SBP_MSG_EPHEMERIS_GLO; SBP_MSG_EPHEMERIS_BDS; SBP_MSG_EPHEMERIS_GAL] = false.
Proof. cbn [In]. intros H. repeat (destruct H as [<- | H]; [vm_compute; auto|]). contradiction. Qed.
(** any history of log, OSR and SSR messages (C69 and C70: what these frames deliver): the k-th call returns the frame of the k-th message *)
Theorem C75_wrapped_messages : forall carrier code_of other leap s cs fs, Forall sbp_call cs -> Forall (fun c => 2048 <= c_wlen c) cs ->
  Forall2 (fun c f => In (c_ty c) [1025; 1501; 1505; 1510; 1525; 1530; 1531; 1600] /\ tunnel_tx (c_ty c) (c_sender c) (c_rbuf c) = Some (Ok f)) cs fs -> Forall (fun f => len f <= 1023) fs ->
  exists s', conv_run (conv_handle carrier code_of other leap) (s, []) cs = Ok (s', [], fs).
Proof.
  intros carrier code_of other leap s cs fs F W T L.
  assert (D : exists s', direct (conv_handle carrier code_of other leap) s cs = Ok (s', fs)).
  { clear F W L. revert s. induction T as [|c f cs fs (TY & TX) T IH]; intros s; [exists s; reflexivity|]. cbn [direct]. destruct (tunnelled_types _ TY) as (E1 & E2 & E3). rewrite E1. unfold conv_handle. rewrite E2, E3, TX. cbn [bind].
    match goal with |- context [direct ?h ?x cs] => destruct (IH x) as (s' & E) end. exists s'. unfold conv_handle in E. rewrite E. cbn [bind concat]. rewrite app_nil_r. reflexivity. }
  destruct D as (s' & D). exists s'. apply C75_each_call_returns_its_bytes_partial; try assumption. eapply Forall_impl; [|exact L]. cbv beta. intros; lia.
Qed.
(** a whole history: two OSR messages and a log message *)
Example C75_wrapped_example : exists f1 f2 f3,
  Forall2 (fun c f => In (c_ty c) [1025; 1501; 1505; 1510; 1525; 1530; 1531; 1600] /\ tunnel_tx (c_ty c) (c_sender c) (c_rbuf c) = Some (Ok f))
    [mkcall 4660 1600 [1; 2; 3] 4096; mkcall 4660 1600 [] 4096; mkcall 7 1025 [6; 104; 105] 2048] [f1; f2; f3] /\ len f1 = 16 /\ len f2 = 13 /\ len f3 = 17.
Proof.
  eexists _, _, _. split.
  - constructor; [split; [cbn [In c_ty]; tauto|vm_compute; reflexivity]|]. constructor; [split; [cbn [In c_ty]; tauto|vm_compute; reflexivity]|].
    constructor; [split; [cbn [In c_ty]; tauto|vm_compute; reflexivity]|]. constructor.
  - vm_compute. auto.
Qed.

(** ** a history of observation, log, OSR and SSR messages *)
(** what a message does to the epoch assembly of C28: an observation message is assembled; a log message with at least one character only leaves its sender behind
    (see C30); the others do nothing *)
Definition sbp_event (c : call) : list event :=
  if c_ty c =? 74 then [EObs (c_sender c) (c_rbuf c)] else if (c_ty c =? 1025) && (2 <=? len (c_rbuf c)) then [EOther (c_sender c)] else [].
(** what the calls return, split by message type *)
Definition of_obs (cs : list call) (ws : list (list Z)) : list Z := concat (List.map snd (filter (fun x => c_ty (fst x) =? 74) (combine cs ws))).
(** The epochs that the converter makes frames of are exactly those that C28 assembles from the observation messages of the history, and what the observation calls
    return is the frames of these epochs, in order, whatever other messages come in between; a wrapped message returns its own frame. *)
Theorem C75_observations_assembled : forall carrier code_of other leap cs s s' ws,
  Forall (fun c => In (c_ty c) [74; 1025; 1501; 1505; 1510; 1525; 1530; 1531; 1600]) cs -> direct (conv_handle carrier code_of other leap) s cs = Ok (s', ws) ->
  exists es fss, Sbp2Rtcm_model.run s (flat_map sbp_event cs) = Ok (s', es) /\ Forall2 (fun e fs => epoch_frames carrier code_of (conv_cfg leap) e = Ok fs) es fss /\
    of_obs cs ws = concat (concat fss) /\
    Forall2 (fun c w => c_ty c <> 74 -> match tunnel_tx (c_ty c) (c_sender c) (c_rbuf c) with Some r => r = Ok w | None => w = [] end) cs ws.
Proof.
  intros carrier code_of other leap. induction cs as [|c cs IH]; intros s s' ws F D; cbn [direct] in D.
  - injection D as <- <-. exists [], []. repeat split; constructor.
  - inversion F as [|? ? C F']; subst. destruct (existsb (Z.eqb (c_ty c)) converted) eqn:EX.
    2: { exfalso. clear - C EX. cbn [In] in C. repeat (destruct C as [C|C]; [rewrite <- C in EX; vm_compute in EX; discriminate EX|]). contradiction. }
    destruct (conv_handle carrier code_of other leap (c_ty c) (c_sender c) (c_rbuf c) s) as [[s1 bufs]| | |] eqn:H; try discriminate D. cbn [bind] in D.
    destruct (direct (conv_handle carrier code_of other leap) s1 cs) as [[s2 ws']| | |] eqn:D1; try discriminate D. cbn [bind] in D. injection D as <- <-.
    destruct (IH _ _ _ F' D1) as (es & fss & R & FF & OO & TT). destruct C as [C|C].
    + assert (TE : (c_ty c =? 74) = true) by (rewrite <- C; reflexivity). unfold conv_handle in H. change SBP_MSG_OBS with 74 in H. rewrite TE in H.
      destruct (obs_cb s (c_sender c) (c_rbuf c)) as [[s1' es1]| | |] eqn:OB; try discriminate H. cbn [bind] in H.
      destruct (all_ok (map (epoch_frames carrier code_of (conv_cfg leap)) es1)) as [fss1| | |] eqn:AO; try discriminate H. cbn [bind] in H. injection H as <- <-.
      exists (es1 ++ es), (fss1 ++ fss). split; [|split; [|split]].
      * cbn [flat_map]. unfold sbp_event at 1. rewrite TE. cbn [app Sbp2Rtcm_model.run step]. rewrite OB. cbn [bind]. rewrite R. cbn [bind]. reflexivity.
      * apply Forall2_app; [|exact FF]. clear - AO. revert fss1 AO. induction es1 as [|e es1 IH]; intros fss1 AO; cbn [map all_ok] in AO; [injection AO as <-; constructor|].
        destruct (epoch_frames carrier code_of (conv_cfg leap) e) as [f| | |] eqn:E; try discriminate AO. cbn [bind] in AO.
        destruct (all_ok (map (epoch_frames carrier code_of (conv_cfg leap)) es1)) as [l| | |]; try discriminate AO. cbn [bind] in AO. injection AO as <-. constructor; [exact E|]. apply IH. reflexivity.
      * unfold of_obs in *. cbn [combine filter fst]. rewrite TE. cbn [List.map concat snd]. rewrite OO, !concat_app. reflexivity.
      * constructor; [intros N; congruence|exact TT].
    + assert (TE : (c_ty c =? 74) = false) by (clear - C; cbn [In] in C; apply Z.eqb_neq; lia). destruct (tunnelled_types _ C) as (_ & E2 & E3). unfold conv_handle in H. rewrite E2, E3 in H.
      exists es, fss. assert (X : Sbp2Rtcm_model.run s (sbp_event c) = Ok (s1, []) /\ (match tunnel_tx (c_ty c) (c_sender c) (c_rbuf c) with Some r => r = Ok (concat bufs) | None => concat bufs = [] end)).
      { unfold sbp_event. rewrite TE. destruct (tunnel_tx (c_ty c) (c_sender c) (c_rbuf c)) as [r|] eqn:TX.
        - destruct r as [f| | |]; try discriminate H. cbn [bind] in H. injection H as <- <-. split; [|cbn [concat]; rewrite app_nil_r; reflexivity]. change SBP_MSG_LOG with 1025.
          destruct (Z.eqb_spec (c_ty c) 1025) as [E|N]; [|reflexivity]. cbn [andb]. destruct (Z.leb_spec 2 (len (c_rbuf c))); [reflexivity|]. exfalso. rewrite E in TX. unfold tunnel_tx in TX. cbn in TX. unfold log_cb in TX.
          destruct (Z.ltb_spec (len (c_rbuf c)) 2); [discriminate TX|lia].
        - injection H as <- <-. split; [|reflexivity]. destruct (Z.eqb_spec (c_ty c) 1025) as [E|N]; [|reflexivity]. cbn [andb]. destruct (Z.leb_spec 2 (len (c_rbuf c))); [|reflexivity]. exfalso. rewrite E in TX. unfold tunnel_tx in TX. cbn in TX. unfold log_cb in TX.
          destruct (Z.ltb_spec (len (c_rbuf c)) 2); [lia|discriminate TX]. }
      destruct X as (X1 & X2). split; [|split; [exact FF|split]].
      * cbn [flat_map]. rewrite Properties_sbp2rtcm.run_app, X1. cbn [bind]. rewrite R. reflexivity.
      * unfold of_obs in *. cbn [combine filter fst]. rewrite TE. exact OO.
      * constructor; [intros _; exact X2|exact TT].
Qed.

(** a whole history: an epoch of two messages with an OSR message in between *)
Example C75_assembled_example :
  let cs := [mkcall 100 74 Properties_sbp2rtcm.demo_p1 4096; mkcall 9 1600 [1; 2; 3] 4096; mkcall 100 74 Properties_sbp2rtcm.demo_p2 4096] in
  Forall (fun c => In (c_ty c) [74; 1025; 1501; 1505; 1510; 1525; 1530; 1531; 1600]) cs /\
  exists s' ws e, direct (conv_handle ex_carrier ex_code_of (fun _ _ _ s => Ok (s, [])) 18) (init 100 (mkohdr 0 0 0 0)) cs = Ok (s', ws) /\
    Sbp2Rtcm_model.run (init 100 (mkohdr 0 0 0 0)) (flat_map sbp_event cs) = Ok (s', [e]) /\ map len ws = [0; 16; 74].
Proof.
  cbv zeta. split; [repeat constructor; cbn; tauto|]. eexists _, _, _. split; [vm_compute; reflexivity|]. split; [vm_compute; reflexivity|vm_compute; reflexivity].
Qed.

(** ** observations: end to end *)
(** A call that completes one epoch of at most 150 observations, with room for 2048 bytes: it returns complete, valid RTCM frames, one per
    constellation present; however the bytes are split into reads, the receiver finds exactly these frames, decodes each of them and gets back the
    observations as C65 says (here without GLONASS phases, see below).  Partial: 150 (refuted below for 210, the converter's own limit). *)
Theorem C75_observation_epoch_partial : forall carrier code_of num_of rc other leap s sender msg s' e wlen,
  carriers_ok carrier -> (forall k, code_of (num_of k) = k) -> fcn_map_ok (rc_fcns rc) -> maps_agree conv_fcns (rc_fcns rc) -> -128 <= leap <= 127 ->
  obs_cb s sender msg = Ok (s', [e]) -> len msg <= 255 -> 2048 <= wlen < 2 ^ 32 ->
  0 <= oh_tow (e_hdr e) < 604800000 -> epoch_ok code_of (e_obs e) -> Forall obs_in_range (e_obs e) -> len (e_obs e) <= 150 ->
  exists fs, conv_step (conv_handle carrier code_of other leap) (s, []) sender 74 msg wlen = Ok (s', [], concat fs) /\
    (forall chunks, Forall good_read chunks -> concat chunks = concat fs -> exists r, RtcmFraming_model.run chunks = Some (r, fs)) /\
    Forall2 (fun c f => exists dm, run_dec (decode_msm_d 5) (payload_of f) = Ok dm /\
      exists ord opts, Permutation ord (obs_of code_of c (e_obs e)) /\
        Forall2 (outcome carrier code_of 5 conv_fcns (rc_fcns rc) (rc_masked rc) (e_obs e)) ord opts /\
        to_sbp carrier num_of rc dm = Some (flat_map (fun r => match r with Some o => [o] | None => [] end) opts)) (present code_of (e_obs e)) fs.
Proof.
  intros carrier code_of num_of rc other leap s sender msg s' e wlen CAR NUM FM AG LEAP OC LM W TOW OK RG N.
  destruct (epoch_ok_frames carrier code_of num_of rc leap e CAR NUM FM AG LEAP TOW OK RG) as (fs & EF & VF & LF & REST).
  exists fs. split; [|split; [intros chunks G C; exact (frames_delivered fs chunks VF G C)|exact REST]].
  unfold conv_step. change (existsb (Z.eqb 74) converted) with true. cbv iota. rewrite (take_rbuf _ LM). unfold conv_handle. change (74 =? SBP_MSG_OBS) with true. cbv iota. rewrite OC. cbn [bind map all_ok]. rewrite EF. cbn [bind concat]. rewrite app_nil_r.
  assert (LL : len (concat fs) <= 2048) by (clear - LF N; lia). rewrite writes_fit by (change (len (@nil Z)) with 0; clear - LL; lia).
  cbn [app]. rewrite Z.mod_small by lia. unfold conv_read. rewrite take_all, drop_all by lia. reflexivity.
Qed.
(** the hypotheses are met: a message that completes an epoch of four observations *)
Definition le_bytes (n : nat) (v : Z) : list Z := map (fun i => Z.land (Z.shiftr v (8 * Z.of_nat i)) 255) (seq 0 n).
Definition packed (o : pobs) : list Z := le_bytes 4 (o_P o) ++ le_bytes 4 (o_Li o) ++ [o_Lf o] ++ le_bytes 2 (o_Di o) ++ [o_Df o; o_cn0 o; o_lock o; o_flags o; o_sat o; o_code o].
Definition ex_state : ost := init 0x1234 (mkohdr 0 0 0 0).
Definition ex_msg : list Z := le_bytes 4 345600200 ++ le_bytes 4 0 ++ le_bytes 2 2190 ++ [16] ++ concat (map packed ex_obs).
Example C75_observation_example : exists s', obs_cb ex_state 0x1234 ex_msg = Ok (s', [ex_epoch]) /\ len ex_msg = 79 /\ epoch_ok ex_code_of (e_obs ex_epoch) /\ Forall obs_in_range (e_obs ex_epoch) /\ len (e_obs ex_epoch) = 4 /\
  fcn_map_ok conv_fcns /\ maps_agree conv_fcns conv_fcns.
Proof.
  eexists. split; [vm_compute; reflexivity|]. split; [reflexivity|]. split; [exact ex_epoch_ok|]. split; [exact ex_in_range|]. split; [reflexivity|]. split; [exact conv_map_ok|]. intros x Hx. right. left. reflexivity.
Qed.

(** ** what is lost *)
Definition ex_packed (sat code : Z) : list Z := packed (mkpobs 1061728394 111588407 107 3217 229 180 9 1 sat code).
Definition one_to (n : nat) : list Z := map (fun i => Z.of_nat i + 1) (seq 0 n).
(** an epoch of 210 observations, the most sbp2rtcm accepts: 32 GPS, 32 Galileo, 32 BeiDou, 9 GLONASS satellites, two signals each, in 15 messages *)
Definition big_epoch : list (list Z) :=
  flat_map (fun s => [ex_packed s 0; ex_packed s 6]) (one_to 32) ++ flat_map (fun s => [ex_packed s 20; ex_packed s 26]) (one_to 32) ++
  flat_map (fun s => [ex_packed s 45; ex_packed s 46]) (one_to 32) ++ flat_map (fun s => [ex_packed s 16; ex_packed s 17]) (one_to 9).
Definition big_calls : list call :=
  map (fun i => mkcall 0x1234 74 (le_bytes 4 345600200 ++ le_bytes 4 0 ++ le_bytes 2 2190 ++ [0xF0 + i] ++ concat (take 14 (drop (14 * i) big_epoch))) 65536) (map Z.of_nat (seq 0 15)).
Definition nothing (_ _ : Z) (_ : list Z) (s : ost) : res (ost * list (list Z)) := Ok (s, []).
Definition ex_handle := conv_handle ex_carrier ex_code_of nothing 18.
Definition frames_found (bytes : list Z) : option (list Z) := match RtcmFraming_model.run [bytes] with Some (_, fs) => Some (map (fun f => StaConv_model.frame_type (drop 3 f)) fs) | None => None end.
(** what the caller can see of a history: the number of bytes written by each call, the number of bytes returned by it, the bytes still waiting at
    the end, the types of the frames in the bytes written and in the bytes returned *)
Definition seen (cs : list call) : option (list Z * list Z * list Z * option (list Z) * option (list Z)) :=
  match direct ex_handle ex_state cs, conv_run ex_handle (ex_state, []) cs with
  | Ok (_, ws), Ok (_, fifo, outs) => Some (map len ws, map len outs, fifo, frames_found (concat ws), frames_found (concat outs)) | _, _ => None end.
(** finding: although every call has room for 65536 bytes, 216 of the 2264 bytes are gone: the last frame (1095, Galileo) is cut off, and no later
    call returns its rest *)
Lemma big_sizes : forallb (fun c => (len (c_rbuf c) =? 249) && (c_wlen c =? 65536)) big_calls = true.
Proof. vm_compute. reflexivity. Qed.
Theorem C75_large_epoch_refuted : Forall sbp_call big_calls /\
  seen big_calls = Some (repeat 0 14 ++ [2264], repeat 0 14 ++ [2048], [], Some [1075; 1085; 1125; 1095], Some [1075; 1085; 1125]).
Proof.
  split; [|vm_compute; reflexivity]. pose proof big_sizes as F. rewrite forallb_forall in F. apply Forall_forall. intros c Hc. specialize (F c Hc). apply andb_prop in F. destruct F as [F1 F2].
  apply Z.eqb_eq in F1, F2. split; [rewrite F1; discriminate|rewrite F2; lia].
Qed.
(** finding: a caller that gives less room than is written (here: none for eight messages) loses the end of a frame once 2048 bytes wait, and with it
    that frame; here one more, whose bytes follow the cut *)
Theorem C75_slow_caller_refuted : let c wlen := mkcall 7 1600 (repeat 5 255) wlen in
  seen (repeat (c 0) 8 ++ [c 4096; c 4096]) = Some (repeat 268 10, repeat 0 8 ++ [2048; 268], [], Some (repeat 4062 10), Some (repeat 4062 8)).
Proof. vm_compute. reflexivity. Qed.

(** finding: sbp_conv has no way to learn the GLONASS frequency channels, so every GLONASS carrier phase and Doppler is dropped, for every epoch *)
Theorem C75_glonass_phase_refuted : forall carrier code_of m dm, to_constellation (mh_num (om_hdr m)) = cGLO -> values carrier code_of conv_fcns m = Some dm ->
  Forall (fun g => dv_cp g = false /\ dv_dop g = false) (dm_sigs dm).
Proof.
  intros carrier code_of m dm G V. unfold values in V.
  destruct (all_some (map (fold_right _ _) _)) as [ss|]; [|discriminate V]. destruct (all_some (map (fun c : option pobs => _) _)) as [gs|] eqn:EG; [|discriminate V]. injection V as <-. cbn [dm_sigs].
  apply MsmVal_epoch_proofs.all_some_spec in EG. apply Forall_forall. intros g Hg. apply (in_map Some) in Hg. rewrite <- EG in Hg. apply in_map_iff in Hg. destruct Hg as (o & E & _).
  destruct o as [o|]; [|injection E as <-; split; reflexivity]. unfold write_sig, obs_freq in E. destruct (code_to_msm_signal_index _ _) as [sig|]; [|discriminate E].
  unfold obs_fcn in E. rewrite G in E. change (cons_eqb cGLO cGLO) with true in E. cbv iota in E.
  destruct ((0 <=? o_sat o) && (o_sat o <? len conv_fcns)) eqn:R; [|discriminate E]. apply andb_prop in R. destruct R as [R1 R2]. apply Z.leb_le in R1. apply Z.ltb_lt in R2. change (len conv_fcns) with 29 in R2.
  assert (F : znth 0 (o_sat o) conv_fcns = 255) by (unfold conv_fcns, znth; apply (repeat_spec 29); apply nth_In; rewrite repeat_length; lia). rewrite F in E.
  unfold msm_signal_frequency, msm_signal_to_code in E. destruct (find_nth_mask_value 32 _ _) as [p|]; [|discriminate E]. rewrite G in E. cbn [get_msm_code] in E.
  assert (N : signal_freq carrier (get_msm_glo_code (p + 1)) 255 = None).
  { destruct (get_msm_glo_code (p + 1)) eqn:K; try reflexivity; exfalso; revert K; unfold get_msm_glo_code;
      repeat match goal with |- context [if ?b then _ else _] => destruct b; [discriminate|] | |- context [match ?x with _ => _ end] => destruct x; try discriminate end; discriminate. }
  rewrite N in E. injection E as <-. split; reflexivity.
Qed.
(** a GLONASS observation with code, phase and Doppler through sbp_conv's configuration and back: code only *)
Example C75_glonass_example : chain ex_carrier ex_code_of ex_num_of conv_fcns ex_rc (conv_cfg 18) (mkepoch 1 (mkohdr 345600200 0 2190 16) [mkpobs 999999975 106911459 99 (-5354) 104 200 12 15 7 16])
  = Some [Some [mkpobs 999999975 0 0 0 0 200 12 1 7 16]].
Proof. vm_compute. reflexivity. Qed.

Print Assumptions C75_bytes_returned_in_order_partial.
Print Assumptions C75_each_call_returns_its_bytes_partial.
Print Assumptions C75_buffer_bounded.
Print Assumptions C75_other_types_ignored.
Print Assumptions C75_wrapped_messages.
Print Assumptions C75_observation_epoch_partial.
Print Assumptions C75_large_epoch_refuted.
Print Assumptions C75_slow_caller_refuted.
Print Assumptions C75_glonass_phase_refuted.
Print Assumptions C75_observations_assembled.
