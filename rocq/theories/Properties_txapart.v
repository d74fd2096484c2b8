(** C89: the conversions of sbp2rtcm do not interfere with each other. *)
From Flocq Require Import Core IEEE754.Binary IEEE754.Bits.
From Verif Require StaConv_model.
From Verif Require Import Base Bits_model Double_model Esf_model RtcmMsm_model SbpEph_model Signals_model MsmVal_model Sbp2Rtcm_model Tunnel_model Relay_model Relay_spec Relay_proofs Properties_msmval Properties_relay.
Local Open Scope Z_scope.
Import ListNotations.

Section C89.
Variables (carrier : code -> Z) (code_of : Z -> code) (c : Z -> dbl) (eps : dbl) (log2f : binary32 -> binary32) (leap : Z).
Notation step := (tool_step carrier code_of c eps log2f leap).
Notation run := (tool_run carrier code_of c eps log2f leap).

(** a run with the frames written at each message *)
Fixpoint trace (st : Sbp2Rtcm_model.ost) (ms : list sbpin) : res (Sbp2Rtcm_model.ost * list (sbpin * list (list Z))) :=
  match ms with
  | [] => Ok (st, [])
  | m :: ms => bind (step m st) (fun '(st, fs) => bind (trace st ms) (fun '(st, t) => Ok (st, (m, fs) :: t)))
  end.
Lemma trace_run ms : forall st st' t, trace st ms = Ok (st', t) -> map fst t = ms /\ run st ms = Ok (st', concat (map snd t)).
Proof.
  induction ms as [|m ms IH]; intros st st' t E; cbn [trace Relay_model.tool_run] in *.
  - injection E as <- <-. auto.
  - destruct (step m st) as [[st1 fs]| | |]; cbn [bind] in *; try discriminate E.
    destruct (trace st1 ms) as [[st2 t2]| | |] eqn:R; cbn [bind] in *; try discriminate E. injection E as <- <-.
    destruct (IH _ _ _ R) as (A & B). rewrite B. cbn [map fst snd concat bind]. rewrite A. auto.
Qed.
Lemma run_trace ms : forall st st' fs, run st ms = Ok (st', fs) -> exists t, trace st ms = Ok (st', t) /\ concat (map snd t) = fs.
Proof.
  induction ms as [|m ms IH]; intros st st' fs E; cbn [trace Relay_model.tool_run] in *.
  - injection E as <- <-. exists []. auto.
  - destruct (step m st) as [[st1 f]| | |]; cbn [bind] in *; try discriminate E.
    destruct (run st1 ms) as [[st2 f2]| | |] eqn:R; cbn [bind] in *; try discriminate E. injection E as <- <-.
    destruct (IH _ _ _ R) as (t & A & B). rewrite A. cbn [bind]. eexists. split; [reflexivity|]. cbn [map snd concat]. rewrite B. reflexivity.
Qed.
Lemma base_pos_any sd x y z o1 o2 o fs : StaConv_model.base_pos_cb sd x y z (StaConv_model.ost0 o1) = Ok (o, fs) ->
  StaConv_model.o_sender o = sd /\ StaConv_model.base_pos_cb sd x y z (StaConv_model.ost0 o2) = Ok (o, fs).
Proof.
  unfold StaConv_model.base_pos_cb, StaConv_model.ost0. cbn [StaConv_model.o_known StaConv_model.o_height StaConv_model.o_ant StaConv_model.o_rcv]. intros E. split; [|exact E].
  destruct (StaConv_model.quantise_1006 _) as [m6| | |]; cbn [bind] in E; try discriminate E. destruct (RtcmFrameOut_model.encode_rtcm3_frame _) as [f6| | |]; cbn [bind] in E; try discriminate E. injection E as <- <-. reflexivity.
Qed.
Lemma biases_any sd k a b c0 d o1 o2 o fs : StaConv_model.glo_biases_cb sd k a b c0 d (StaConv_model.ost0 o1) = Ok (o, fs) ->
  StaConv_model.o_sender o = sd /\ StaConv_model.glo_biases_cb sd k a b c0 d (StaConv_model.ost0 o2) = Ok (o, fs).
Proof.
  unfold StaConv_model.glo_biases_cb, StaConv_model.ost0. cbn [StaConv_model.o_known StaConv_model.o_height StaConv_model.o_ant StaConv_model.o_rcv]. intros E. split; [|exact E].
  repeat (match type of E with bind ?x _ = _ => destruct x; cbn [bind] in E; try discriminate E end). injection E as <- <-. reflexivity.
Qed.
Lemma other_step m st st' fs : is_obs m = false -> step m st = Ok (st', fs) -> st' = after m st /\ forall st2, step m st2 = Ok (after m st2, fs).
Proof.
  destruct m as [sd b]. unfold is_obs, after, leaves_sender, Relay_model.tool_step. cbn [i_body i_sender]. intros O E. destruct b; try discriminate O; clear O.
  - destruct (StaConv_model.base_pos_cb _ _ _ _ _) as [[o f]| | |] eqn:B; cbn [bind] in E; try discriminate E. destruct (base_pos_any _ _ _ _ _ (os_sender st) _ _ B) as (S & _). injection E as <- <-. rewrite S.
    split; [reflexivity|]. intros st2. destruct (base_pos_any _ _ _ _ _ (os_sender st2) _ _ B) as (_ & B2). rewrite B2. cbn [bind]. rewrite S. reflexivity.
  - destruct (StaConv_model.glo_biases_cb _ _ _ _ _ _ _) as [[o f]| | |] eqn:B; cbn [bind] in E; try discriminate E. destruct (biases_any _ _ _ _ _ _ _ (os_sender st) _ _ B) as (S & _). injection E as <- <-. rewrite S.
    split; [reflexivity|]. intros st2. destruct (biases_any _ _ _ _ _ _ _ (os_sender st2) _ _ B) as (_ & B2). rewrite B2. cbn [bind]. rewrite S. reflexivity.
  - destruct (EphOut_model.gps_eph_cb _ _ _ _) as [f| | |]; cbn [bind] in *; try discriminate E. injection E as <- <-. auto.
  - destruct (EphOut_model.bds_eph_cb _ _ _ _) as [f| | |]; cbn [bind] in *; try discriminate E. injection E as <- <-. auto.
  - destruct (EphOut_model.gal_eph_cb _ _) as [f| | |]; cbn [bind] in *; try discriminate E. injection E as <- <-. auto.
  - destruct (EphOut_model.glo_eph_cb _ _ _ _ _ _) as [f| | |]; cbn [bind] in *; try discriminate E. injection E as <- <-. auto.
  - destruct (Z.eqb_spec ty 1025) as [->|N].
    + unfold tunnel_tx in *. change (1025 =? SBP_MSG_LOG) with true in *. cbn [Z.eqb Pos.eqb SBP_MSG_OSR SBP_MSG_SSR_ORBIT_CLOCK SBP_MSG_SSR_PHASE_BIASES SBP_MSG_SSR_CODE_BIASES SBP_MSG_SSR_GRIDDED_CORRECTION_DEP_A SBP_MSG_SSR_GRID_DEFINITION_DEP_A SBP_MSG_SSR_STEC_CORRECTION_DEP_A] in *.
      unfold log_cb in *. destruct (len p <? 2) eqn:L; replace (2 <=? len p) with (negb (len p <? 2)) by lia; rewrite L; cbn [negb andb].
      * injection E as <- <-. auto.
      * match type of E with bind ?x _ = _ => destruct x as [f| | |]; cbn [bind] in *; try discriminate E end. injection E as <- <-. auto.
    + replace (ty =? SBP_MSG_LOG) with false in * by (change SBP_MSG_LOG with 1025; lia). cbn [andb].
      destruct (tunnel_tx ty sd p) as [r|]; [|injection E as <- <-; auto]. destruct r as [f| | |]; cbn [bind] in *; try discriminate E. injection E as <- <-. auto.
  - injection E as <- <-. auto.
Qed.

(** Whatever was sent before: the frames written for a message that is not an observation message are those written for it alone, by a converter in any state *)
Theorem C89_others_alone : forall pre m post st st' fs, is_obs m = false -> run st (pre ++ m :: post) = Ok (st', fs) ->
  exists st1 fs1 fm fs2, fs = fs1 ++ fm ++ fs2 /\ run st pre = Ok (st1, fs1) /\ forall other, exists other', run other [m] = Ok (other', fm).
Proof.
  induction pre as [|m1 pre IH]; intros m post st st' fs O E; cbn [app Relay_model.tool_run] in E.
  - destruct (step m st) as [[st1 fm]| | |] eqn:S; cbn [bind] in E; try discriminate E. destruct (run st1 post) as [[st2 fs2]| | |] eqn:R; cbn [bind] in E; try discriminate E. injection E as <- <-.
    exists st, [], fm, fs2. split; [reflexivity|]. split; [reflexivity|]. intros other. destruct (other_step m st st1 fm O S) as (_ & A). cbn [Relay_model.tool_run]. rewrite A. cbn [bind]. rewrite app_nil_r. eauto.
  - destruct (step m1 st) as [[st1 f1]| | |] eqn:S; cbn [bind] in E; try discriminate E. destruct (run st1 (pre ++ m :: post)) as [[st2 fs2]| | |] eqn:R; cbn [bind] in E; try discriminate E. injection E as <- <-.
    destruct (IH m post st1 st2 fs2 O R) as (sa & fa & fm & fb & -> & P & A). exists sa, (f1 ++ fa), fm, fb. split; [rewrite app_assoc; reflexivity|]. split; [|exact A].
    cbn [Relay_model.tool_run]. rewrite S. cbn [bind]. rewrite P. reflexivity.
Qed.
(** The frames written at each observation message are the same when all messages are dropped that do not concern the epoch being assembled: ephemerides, OSR and SSR messages, logs without text
    and messages that are not converted.  (Base positions, GLONASS biases and logs replace the sender of the epoch: C30.) *)
Definition concerns_epoch (m : sbpin) : bool := is_obs m || leaves_sender m.
Lemma trace_apart ms : forall st st' t, trace st ms = Ok (st', t) -> trace st (filter concerns_epoch ms) = Ok (st', filter (fun x => concerns_epoch (fst x)) t).
Proof.
  induction ms as [|m ms IH]; intros st st' t E; cbn [trace] in E; [injection E as <- <-; reflexivity|].
  destruct (step m st) as [[st1 fs]| | |] eqn:S; cbn [bind] in E; try discriminate E. destruct (trace st1 ms) as [[st2 t2]| | |] eqn:R; cbn [bind] in E; try discriminate E. injection E as <- <-.
  cbn [filter fst]. destruct (concerns_epoch m) eqn:C.
  - cbn [trace]. rewrite S. cbn [bind]. rewrite (IH _ _ _ R). reflexivity.
  - unfold concerns_epoch in C. apply orb_false_iff in C. destruct C as (O & L). destruct (other_step m st st1 fs O S) as (A & _). unfold after in A. rewrite L in A. subst st1. exact (IH _ _ _ R).
Qed.
Theorem C89_observations_apart : forall ms st st' fs, run st ms = Ok (st', fs) -> exists t,
  map fst t = ms /\ concat (map snd t) = fs /\ run st (filter concerns_epoch ms) = Ok (st', concat (map snd (filter (fun x => concerns_epoch (fst x)) t))).
Proof.
  intros ms st st' fs E. destruct (run_trace ms st st' fs E) as (t & T & F). exists t. destruct (trace_run _ _ _ _ T) as (M & _). split; [exact M|]. split; [exact F|].
  exact (proj2 (trace_run _ _ _ _ (trace_apart _ _ _ _ T))).
Qed.
(** With one sender for all messages everything but the observation messages can be dropped *)
Lemma obs_keeps_sender p sd st st' es : obs_cb st sd p = Ok (st', es) -> os_sender st' = sd.
Proof.
  unfold obs_cb. destruct (len p <? HDR_LEN); [discriminate|].
  assert (forall s0 s1 o, accept s0 p = Ok (s1, o) -> os_sender s1 = os_sender s0) as A.
  { intros s0 s1 o. unfold accept. destruct (copy_loop _ _ _ _); [|discriminate]. unfold flush. destruct (_ =? _); intros X; injection X as <- _; reflexivity. }
  assert (forall s1, os_sender s1 = sd -> forall s2 o, (if 0 <? len (os_buf s1) then
      match sbp_diff_time (parse_hdr p) (os_hdr s1) with
      | None => Ub
      | Some dt => if dltb dt (dofZ 0) then Ok (s1, [])
              else if dgtb dt (dofZ 0) then let '(s, o) := flush s1 in bind (accept s p) (fun '(s, o') => Ok (s, o ++ o'))
              else if negb (seq_size (oh_n (parse_hdr p)) =? seq_size (oh_n (os_hdr s1))) || (seq_counter (oh_n (parse_hdr p)) <=? seq_counter (oh_n (os_hdr s1))) then Ok (flush s1)
              else accept s1 p
      end else accept s1 p) = Ok (s2, o) -> os_sender s2 = sd) as B.
  { intros s1 S s2 o. destruct (0 <? _); [|intros X; apply A in X; congruence]. destruct (sbp_diff_time _ _); [|discriminate].
    destruct (dltb _ _); [intros X; injection X as <- _; exact S|]. destruct (dgtb _ _).
    - unfold flush. destruct (accept _ p) as [[s3 o3]| | |] eqn:Q; cbn [bind]; try discriminate. intros X. injection X as <- _. apply A in Q. cbn [os_sender] in Q. congruence.
    - destruct (_ || _); [intros X; unfold flush in X; injection X as <- _; exact S|intros X; apply A in X; congruence]. }
  cbv zeta. destruct (os_sender st =? sd) eqn:Q; cbn [negb].
  - intros E. match type of E with bind ?x _ = _ => destruct x as [[s2 o]| | |] eqn:R; cbn [bind] in E; try discriminate E end. injection E as <- _. eapply B; [|exact R]. lia.
  - unfold flush at 1. cbn beta iota. intros E. match type of E with bind ?x _ = _ => destruct x as [[s2 o]| | |] eqn:R; cbn [bind] in E; try discriminate E end. assert (s2 = st') as <- by congruence. exact (B (mkost sd (os_hdr st) []) eq_refl s2 _ R).
Qed.
Lemma step_sender m st st' fs : step m st = Ok (st', fs) -> os_sender st = i_sender m -> os_sender st' = i_sender m /\ (is_obs m = false -> st' = st).
Proof.
  intros E S. destruct (is_obs m) eqn:O.
  - split; [|discriminate]. destruct m as [sd b]. destruct b; try discriminate O. unfold Relay_model.tool_step in E. cbn [i_body i_sender] in *.
    destruct (obs_cb st sd p) as [[s1 es]| | |] eqn:Q; cbn [bind] in E; try discriminate E. apply obs_keeps_sender in Q.
    match type of E with bind ?x _ = _ => destruct x; cbn [bind] in E; try discriminate E end. injection E as <- _. exact Q.
  - destruct (other_step m st st' fs O E) as (-> & _). unfold after. destruct (leaves_sender m); [|auto]. split; [reflexivity|]. intros _. rewrite <- S. destruct st; reflexivity.
Qed.
Lemma trace_one sd ms : Forall (fun m => i_sender m = sd) ms -> forall st st' t, os_sender st = sd -> trace st ms = Ok (st', t) -> trace st (filter is_obs ms) = Ok (st', filter (fun x => is_obs (fst x)) t).
Proof.
  induction ms as [|m ms IH]; intros F st st' t S E; cbn [trace] in E; [injection E as <- <-; reflexivity|]. pose proof (Forall_inv F) as F1. cbn beta in F1. pose proof (Forall_inv_tail F) as F2.
  destruct (step m st) as [[st1 fs]| | |] eqn:Q; cbn [bind] in E; try discriminate E. destruct (trace st1 ms) as [[st2 t2]| | |] eqn:R; cbn [bind] in E; try discriminate E. injection E as <- <-.
  destruct (step_sender m st st1 fs Q ltac:(congruence)) as (S1 & K). rewrite F1 in S1. cbn [filter fst]. destruct (is_obs m).
  - cbn [trace]. rewrite Q. cbn [bind]. rewrite (IH F2 _ _ _ S1 R). reflexivity.
  - rewrite (K eq_refl) in R. exact (IH F2 _ _ _ S R).
Qed.
Theorem C89_one_sender : forall sd ms st st' fs, Forall (fun m => i_sender m = sd) ms -> os_sender st = sd -> run st ms = Ok (st', fs) -> exists t,
  map fst t = ms /\ concat (map snd t) = fs /\ run st (filter is_obs ms) = Ok (st', concat (map snd (filter (fun x => is_obs (fst x)) t))).
Proof.
  intros sd ms st st' fs F S E. destruct (run_trace ms st st' fs E) as (t & T & FS). exists t. destruct (trace_run _ _ _ _ T) as (M & _). split; [exact M|]. split; [exact FS|].
  exact (proj2 (trace_run _ _ _ _ (trace_one sd ms F _ _ _ S T))).
Qed.
End C89.
(** the hypotheses are met: the history of C84_result, all from one sender, is converted; two frames with observations, one each for the log, the biases and the SSR message *)
Example C89_applies : Forall (fun m => i_sender m = 0x1234) (map (mkin 0x1234) short) /\ os_sender ex_start = 0x1234 /\
  exists st fs, tool_run ex_carrier ex_code_of (fun _ => d0) d0 (fun x => x) 18 ex_start (map (mkin 0x1234) short) = Ok (st, fs) /\ len fs = 5 /\
  map concerns_epoch (map (mkin 0x1234) short) = [true; true; true; false; false; false].
Proof.
  split; [repeat constructor|]. split; [reflexivity|].
  destruct (tool_run ex_carrier ex_code_of (fun _ => d0) d0 (fun x => x) 18 ex_start (map (mkin 0x1234) short)) as [[st fs]| | |] eqn:E; [|exfalso; vm_compute in E; discriminate E..].
  exists st, fs. split; [reflexivity|]. split; [|reflexivity]. assert (L : match tool_run ex_carrier ex_code_of (fun _ => d0) d0 (fun x => x) 18 ex_start (map (mkin 0x1234) short) with Ok (_, l) => len l | _ => -1 end = 5) by (vm_compute; reflexivity). rewrite E in L. exact L.
Qed.
Print Assumptions C89_others_alone.
Print Assumptions C89_observations_apart.
Print Assumptions C89_one_sender.
