(** C84: sbp2rtcm | rtcm3tosbp -o: the receiver's time is taken from the epochs themselves. *)
From Coq Require Import Reals Permutation.
From Flocq Require Import Core IEEE754.Binary IEEE754.Bits.
From Verif Require StaConv_model Conv_model Properties_staconv Properties_ephout Properties_rx Properties_msmval ToolTime_model.
From Verif Require Import Base Bitstring Bits_model Bitstream_model Double_model Esf_model RtcmEph_model SbpEph_model SbpEph_spec RtcmStation_model RtcmMsm_model RtcmMsm_spec RtcmMsm_proofs Signals_model Sbp2Rtcm_model Sbp2Rtcm_spec
  Sbp2Msm_model Sbp2Msm_spec MsmVal_model MsmVal_spec MsmVal_epoch_proofs RtcmFrameOut_model Conv_model Conv_epoch_proofs Options_model Tunnel_model Tunnel_spec EphOut_model EphOut_spec
  Tables_spec MsmWire_proofs RtcmFraming_model RtcmFraming_spec Properties_framing Time_model Sbp2Rtcm_proofs Properties_sbp2rtcm ObsBuffer_model ObsBuffer_spec ObsExcl_spec ObsExcl_proofs Rx_model Rx_spec Rx_proofs RxTx_model RxTx_spec RxTx_proofs RxTx_frame_proofs Properties_rxtx
  ToolTime_spec Properties_tooltime Relay_model Relay_spec Relay_proofs Properties_relay RelayTime_spec.
Local Open Scope Z_scope.
Local Open Scope list_scope.
Import ListNotations.

Section Pipe.
Variables (carrier num_of : code -> Z) (code_of : Z -> code) (masked : RtcmMsm_model.cons -> bool) (g : msg_1005) (c : Z -> dbl) (eps : dbl) (log2f : binary32 -> binary32) (adj : Z -> Z) (mw : Z -> Z -> option Z) (sbp_ok : Z -> list Z -> bool) (leap : Z).
Hypothesis CAR : carriers_ok carrier.
Hypothesis NUM : forall k, code_of (num_of k) = k.
Hypothesis LR : 0 <= leap <= 30.
Notation rstate := (rstate pobs (list Z * raux)).
Notation R := (full_rest g c adj mw sbp_ok).
Notation utc := (fun _ : gtime => leap).
Notation pipe := (ToolTime_model.tool_run carrier num_of zero_opts masked utc c R).
Notation in_time := (in_time code_of utc leap).
Notation came := (came carrier code_of sbp_ok masked).
Notation written := (written carrier code_of c eps log2f leap).
Notation received_at := (received_at carrier num_of code_of masked utc g c adj mw sbp_ok leap).

(** what the output does to the time *)
Definition timeless (o : out pobs rout) : Prop := match o with OObs _ _ _ _ _ => False | _ => True end.
Lemma timeless_shown (o : list (out pobs rout)) t : Forall timeless o -> fold_left ToolTime_model.shown o t = t.
Proof. induction 1 as [|x o X _ IH]; [reflexivity|]. cbn [fold_left]. destruct x; [destruct X| | | |]; exact IH. Qed.
Lemma forall_messages (Q : out pobs rout -> Prop) o : (forall x, timeless x -> Q x) -> Forall Q (messages o) -> Forall Q o.
Proof.
  intros H F. apply Forall_forall. intros x I. destruct x as [a b c0 d e| | | |]; try (apply H; exact Logic.I).
  rewrite Forall_forall in F. apply F. apply filter_In. split; [exact I|reflexivity].
Qed.
Lemma shown_messages (o : list (out pobs rout)) : forall t, fold_left ToolTime_model.shown o t = fold_left ToolTime_model.shown (messages o) t.
Proof. induction o as [|x o IH]; intros t; [reflexivity|]. destruct x; cbn [messages filter fold_left ToolTime_model.shown]; apply IH. Qed.
Lemma body_timeless sd b gs : body_came sbp_ok sd b gs -> Forall timeless gs.
Proof.
  assert (AL : forall r gs, alone r gs -> Forall timeless gs) by (intros r gs0 ->; constructor; [exact I|constructor]).
  destruct b; cbn [body_came].
  - intros ->. constructor.
  - intros (x' & y' & z' & A & _). eapply AL. exact A.
  - apply AL.
  - intros (s' & A & _). eapply AL. exact A.
  - intros (s' & A & _). eapply AL. exact A.
  - intros (s' & A & _). eapply AL. exact A.
  - intros (s' & A & _). eapply AL. exact A.
  - destruct (_ && _); [intros ->; constructor|]. intros (o & -> & _). apply Forall_forall. intros x I. apply in_map_iff in I. destruct I as (y & <- & _). exact Logic.I.
  - intros ->. constructor.
Qed.

(** one item *)
Lemma pipe_item i fs : written i fs -> item_ok code_of adj mw leap i -> (match i with IEpoch e => bare e = true \/ week_ok e | IMsg _ => True end) -> received_at i fs -> forall t (s : rstate),
  match i with IEpoch e => bare e = false -> in_time i (Some t) | IMsg _ => in_time i (Some t) end -> fcn_map_ok (fcns s) -> r_buf s = [] ->
  match i with IEpoch e => e_obs e = [] \/ oh_tow (e_hdr e) <> 0 \/ gps_time_valid (r_last_gps s) = true | IMsg _ => True end ->
  exists s' o, pipe (map Rx_model.payload_of fs) t s = Some (s', time_after_item t i, o) /\ fcn_map_ok (fcns s') /\ r_buf s' = [] /\ came i (messages o) /\
    (match i with IEpoch e => e_obs e <> [] \/ gps_time_valid (r_last_gps s) = true | IMsg _ => gps_time_valid (r_last_gps s) = true end -> gps_time_valid (r_last_gps s') = true).
Proof.
  intros W OK WK RX t s T FM B X0.
  destruct (match i with IEpoch e => bare e | IMsg _ => false end) eqn:BR.
  - destruct i as [e|m]; [|discriminate BR]. assert (Z0 : e_obs e = []) by (unfold bare in BR; destruct (e_obs e); [reflexivity|discriminate BR]).
    cbn [Properties_relay.written] in W. rewrite (empty_frames carrier num_of code_of masked adj mw sbp_ok leap CAR NUM ltac:(lia) e (proj1 OK) Z0) in W. injection W as <-. exists s, []. split; [cbn [time_after_item]; rewrite BR; reflexivity|].
    split; [exact FM|]. split; [exact B|]. split; [cbn [Relay_spec.came]; rewrite Z0; reflexivity|]. intros [N|N]; congruence.
  - set (P := fun x => in_time i (Some x)). assert (PT : P t) by (destruct i; [apply T; exact BR|exact T]).
    assert (RR : forall refs, Forall P refs -> length refs = length (map Rx_model.payload_of fs) -> exists s' o, rx_run carrier num_of zero_opts masked utc c R (combine (map Some refs) (map Rx_model.payload_of fs)) s = Some (s', o) /\
      fcn_map_ok (fcns s') /\ r_buf s' = [] /\ came i (messages o) /\
      (match i with IEpoch e => e_obs e <> [] \/ gps_time_valid (r_last_gps s) = true | IMsg _ => gps_time_valid (r_last_gps s) = true end -> gps_time_valid (r_last_gps s') = true)).
    { intros refs F L. rewrite map_length in L. apply RX; try assumption; [|rewrite map_length; exact L]. rewrite Forall_map. exact F. }
    assert (OUT : forall o, came i (messages o) -> Forall (fun x => forall t, P t -> P (ToolTime_model.shown t x)) o /\ forall t', fold_left ToolTime_model.shown o t' = time_after_item t' i).
    { intros o C. destruct i as [e|m].
      - cbn [Relay_spec.came] in C. destruct (e_obs e) as [|ob os] eqn:EO; [unfold bare in BR; rewrite EO in BR; discriminate BR|].
        assert (WE : week_ok e) by (destruct WK as [WK|WK]; [congruence|exact WK]).
        destruct C as (ord & opts & _ & _ & M). apply messages_times in M. destruct M as [NE M].
        assert (FX : Forall (fun x => exists sender n l, x = OObs sender (oh_wn (e_hdr e)) (oh_tow (e_hdr e)) n l) (messages o)) by (eapply Forall_impl; [|exact M]; intros x (n & l & ->); eauto).
        assert (WR : -32768 <= oh_wn (e_hdr e) < 32768) by (unfold week_ok in WE; lia).
        assert (SELF : P (mkt (oh_wn (e_hdr e)) (oh_tow (e_hdr e)))).
        { destruct OK as (TW & _). unfold week_ok in WE. eexists. split; [reflexivity|]. unfold in_step, good_time, plausible, at_ms, epoch_ms, WEEK in *. cbn [wn tow]. clear - TW WE LR. repeat split; try lia. }
        split.
        + apply forall_messages; [intros x X t' PT'; destruct x; [destruct X| | | |]; exact PT'|]. eapply Forall_impl; [|exact FX]. intros x (sd & n & l & ->) t' PT'.
          replace (ToolTime_model.shown t' (OObs sd (oh_wn (e_hdr e)) (oh_tow (e_hdr e)) n l)) with (fold_left ToolTime_model.shown [@OObs pobs rout sd (oh_wn (e_hdr e)) (oh_tow (e_hdr e)) n l] t') by reflexivity.
          rewrite (shown_all (oh_wn (e_hdr e)) (oh_tow (e_hdr e))); [|discriminate|constructor; [eauto|constructor]|exact WR]. destruct (_ =? 0); [exact PT'|exact SELF].
        + intros t'. cbn [time_after_item]. rewrite BR, shown_messages. apply shown_all; assumption.
      - cbn [Relay_spec.came] in C. apply body_timeless in C. split.
        + apply forall_messages; [intros x X t' PT'; destruct x; [destruct X| | | |]; exact PT'|]. eapply Forall_impl; [|exact C]. intros x X t' PT'. destruct x; [destruct X| | | |]; exact PT'.
        + intros t'. rewrite shown_messages. apply timeless_shown. exact C. }
    destruct (closed_loop carrier num_of zero_opts masked utc c R P (map Rx_model.payload_of fs) s) with (t := t) as (refs & FR & LF & K).
    { intros refs FR LF. destruct (RR refs FR LF) as (s1 & o1 & E1 & _ & _ & C & _). exists s1, o1. split; [exact E1|]. apply OUT. exact C. }
    { exact PT. }
    destruct (RR refs FR LF) as (s1 & o1 & E1 & F1 & B1 & C1 & V1). exists s1, o1. split; [|auto]. rewrite <- (proj2 (OUT _ C1)). apply K. exact E1.
Qed.

Lemma pipe_items l fss : Forall2 (fun i fs => written i fs /\ Forall valid_frame fs /\ received_at i fs) l fss -> Forall (item_ok code_of adj mw leap) l -> Forall week_ok (real_epochs l) ->
  forall t (s : rstate), items_followed code_of leap t l -> fcn_map_ok (fcns s) -> r_buf s = [] -> first_epoch_ok l \/ gps_time_valid (r_last_gps s) = true ->
  exists s' o gs, pipe (map Rx_model.payload_of (concat fss)) t s = Some (s', fold_left time_after_item l t, o) /\ messages o = concat gs /\ Forall2 came l gs.
Proof.
  induction 1 as [|i fs l fss (W & _ & RX) G IH]; intros F WK t s FO FM B X0.
  - exists s, [], []. split; [reflexivity|]. split; [reflexivity|constructor].
  - inversion F as [|? ? OK F']; subst. destruct FO as [T FO].
    assert (WI : (match i with IEpoch e => bare e = true \/ week_ok e | IMsg _ => True end) /\ Forall week_ok (real_epochs l)).
    { unfold real_epochs, epochs_of in *. destruct i as [e|m]; cbn [flat_map app filter] in WK; [|split; [exact I|exact WK]]. destruct (bare e); cbn [negb] in WK; [split; [left; reflexivity|exact WK]|]. inversion WK; subst. split; [right|]; assumption. }
    destruct WI as [WI WK']. destruct (pipe_item i fs W OK WI RX t s T FM B) as (s1 & o1 & E1 & F1 & B1 & C1 & V1).
    { destruct i as [e|m]; [|exact Logic.I]. destruct X0 as [X0|X0]; [|right; right; exact X0]. destruct (e_obs e) eqn:Q; [left; reflexivity|]. right. left. apply (X0 [] e l eq_refl); [constructor|rewrite Q; discriminate]. }
    destruct (IH F' WK' (time_after_item t i) s1 FO F1 B1) as (s2 & o2 & gs & E2 & M2 & C2).
    { assert (ST : (forall e', i = IEpoch e' -> e_obs e' = []) -> first_epoch_ok (i :: l) -> first_epoch_ok l).
      { intros ZE FE pre e post -> FP NE. apply (FE (i :: pre) e post eq_refl); [|exact NE]. unfold epochs_of. cbn [flat_map]. destruct i as [e'|m']; [constructor; [apply ZE; reflexivity|exact FP]|exact FP]. }
      destruct i as [e|m].
      - destruct (e_obs e) eqn:Q; [|right; apply V1; left; discriminate]. destruct X0 as [X0|X0].
        + left. apply ST; [|exact X0]. intros e' Ee. injection Ee as <-. exact Q.
        + right. apply V1. right. exact X0.
      - destruct X0 as [X0|X0]; [left; apply ST; [discriminate|exact X0]|right; apply V1; exact X0]. }
    exists s2, (o1 ++ o2), (messages o1 :: gs). split; [|split].
    + cbn [concat fold_left]. rewrite map_app, (tool_app _ _ _ _ _ _ _ _ _ _ _ _ _ _ E1), E2. reflexivity.
    + unfold messages in *. rewrite filter_app, M2. reflexivity.
    + constructor; assumption.
Qed.
End Pipe.

(** As C84_relay_partial, but with nothing told about the time after the start date [t]: rtcm3tosbp -o, whose time follows the epochs it sends, turns the output of sbp2rtcm for a mixed
    history into the messages the history asks for, and ends with the time of its last epoch. *)
Theorem C84_pipe_partial : forall carrier num_of code_of masked g c eps log2f adj mw sbp_ok leap ms st st' l t,
  carriers_ok carrier -> (forall k, code_of (num_of k) = k) -> consts_exact c -> eps_ok eps -> log2_ok log2f -> 0 <= leap <= 30 ->
  items st ms = Ok (st', l) -> Forall (item_ok code_of adj mw leap) l -> first_epoch_ok l -> Forall week_ok (real_epochs l) -> items_followed code_of leap t l ->
  exists fss, tool_run carrier code_of c eps log2f leap st ms = Ok (st', concat fss) /\ Forall2 (written carrier code_of c eps log2f leap) l fss /\ Forall valid_frame (concat fss) /\
  forall chunks, Forall good_read chunks -> garbage_separated (concat fss) (concat chunks) ->
  exists s' o gs, ToolTime_model.tool_bytes carrier num_of zero_opts masked (fun _ => leap) c (full_rest g c adj mw sbp_ok) chunks t (rx_init raux0) = Some (s', fold_left time_after_item l t, o) /\
    messages o = concat gs /\ Forall2 (came carrier code_of sbp_ok masked) l gs.
Proof.
  intros carrier num_of code_of masked g c eps log2f adj mw sbp_ok leap ms st st' l t CAR NUM CE EO LO LR I F FE WK FO.
  destruct (tool_items carrier num_of code_of masked (fun _ => leap) g c eps log2f adj mw sbp_ok leap CAR NUM CE EO LO ltac:(lia) ms st st' l I F) as (fss & T & G).
  exists fss. split; [exact T|]. split; [|split].
  - clear - G. induction G as [|i fs l fss (W & _) G IH]; constructor; assumption.
  - clear - G. induction G as [|i fs l fss (_ & V & _) G IH]; cbn [concat]; [constructor|]. apply Forall_app. split; assumption.
  - intros chunks GR GS. destruct (C03_every_frame_delivered chunks (concat fss) GR GS) as (r & E).
    destruct (pipe_items carrier num_of code_of masked g c eps log2f adj mw sbp_ok leap CAR NUM LR l fss G F WK t (rx_init raux0) FO map0_ok eq_refl (or_introl FE)) as (s' & o & gs & ER & M & C).
    exists s', o, gs. split; [|split; assumption]. unfold ToolTime_model.tool_bytes. rewrite E. exact ER.
Qed.

(** a steady stream of epochs with messages of other kinds (except GLONASS ephemerides) anywhere in it is followed *)
Lemma steady_items_followed code_of adj mw leap : 0 <= leap <= 30 -> forall l t x, good_time (fun _ => leap) t -> (x = at_ms t \/ (x mod WEEK = 0 /\ at_ms t < x <= at_ms t + 15000)) ->
  Forall (item_ok code_of adj mw leap) l -> Forall week_ok (real_epochs l) -> steady x (real_epochs l) -> Forall (fun i => is_glo_eph i = false) l -> items_followed code_of leap t l.
Proof.
  intros LR. induction l as [|i l IH]; intros t x GT X F W S NG; [exact I|]. inversion F as [|? ? OK F']; subst. inversion NG as [|? ? N NG']; subst. cbn [items_followed].
  destruct i as [e|m].
  - unfold real_epochs, epochs_of in *. cbn [flat_map app filter] in W, S. cbn [time_after_item]. destruct (bare e) eqn:BR; cbn [negb] in W, S; [split; [discriminate|apply (IH _ x); assumption]|].
    inversion W as [|? ? WE W']; subst. destruct S as [S1 S2]. destruct OK as (TW & _). split.
    + intros _. exists t. split; [reflexivity|]. split; [exact GT|]. split; [unfold WEEK; lia|]. intros _. split; [reflexivity|]. unfold plausible. lia.
    + apply (IH _ (epoch_ms e)); try assumption.
      * unfold time_after. destruct (oh_tow (e_hdr e) =? 0); [exact GT|]. unfold good_time, week_ok, WEEK in *. cbn [wn tow]. lia.
      * unfold time_after. destruct (Z.eqb_spec (oh_tow (e_hdr e)) 0) as [Z0|NZ].
        -- right. assert (M : epoch_ms e mod WEEK = 0) by (unfold epoch_ms; rewrite Z0, Z.add_0_r, Z.mul_comm; apply Z.mod_mul; discriminate). split; [exact M|].
           destruct X as [->|(X1 & X2)]; [lia|]. exfalso. clear - X1 M S1. unfold WEEK in *. lia.
        -- left. unfold at_ms, epoch_ms, WEEK. cbn [wn tow]. ring.
  - split; [|apply (IH _ x); assumption]. cbn [Relay_spec.in_time]. split; [intros ref Q; injection Q as <-; exact GT|]. cbn [is_glo_eph] in N. destruct (i_body m); try exact I; discriminate.
Qed.
(** A steady stream (epochs at most 15 s apart) with everything else in between, except GLONASS ephemerides, needs nothing but a start date at most 15 s before its first epoch. *)
Theorem C84_steady_pipe_partial : forall carrier num_of code_of masked g c eps log2f adj mw sbp_ok leap ms st st' l t,
  carriers_ok carrier -> (forall k, code_of (num_of k) = k) -> consts_exact c -> eps_ok eps -> log2_ok log2f -> 0 <= leap <= 30 ->
  items st ms = Ok (st', l) -> Forall (item_ok code_of adj mw leap) l -> first_epoch_ok l -> Forall week_ok (real_epochs l) ->
  2 < wn t < 32765 -> 0 <= tow t < 604800000 -> steady (at_ms t) (real_epochs l) -> Forall (fun i => is_glo_eph i = false) l ->
  exists fss, tool_run carrier code_of c eps log2f leap st ms = Ok (st', concat fss) /\ Forall2 (written carrier code_of c eps log2f leap) l fss /\ Forall valid_frame (concat fss) /\
  forall chunks, Forall good_read chunks -> garbage_separated (concat fss) (concat chunks) ->
  exists s' o gs, ToolTime_model.tool_bytes carrier num_of zero_opts masked (fun _ => leap) c (full_rest g c adj mw sbp_ok) chunks t (rx_init raux0) = Some (s', fold_left time_after_item l t, o) /\
    messages o = concat gs /\ Forall2 (came carrier code_of sbp_ok masked) l gs.
Proof.
  intros carrier num_of code_of masked g c eps log2f adj mw sbp_ok leap ms st st' l t CAR NUM CE EO LO LR I F FE WK WT TT S NG.
  apply C84_pipe_partial; try assumption. apply (steady_items_followed code_of adj mw leap LR l t (at_ms t)); try assumption; [unfold good_time; lia|left; reflexivity].
Qed.

(** ** A concrete history *)
Import Properties_msmval.
Definition pipe_bodies : list body :=
  [BGps ex_gps; BObs (mk_payload 604795000 2190 16 ex_obs); BRaw 1025 [3; 72; 105]; BObs (mk_payload 0 2191 16 ex_obs); BBias 9 (-735) 0 0 700; BIgnored; BObs (mk_payload 10000 2191 16 ex_obs)].
Definition pipe_items_of (bs : list body) : list item := match items ex_start (map (mkin 0x1234) bs) with Ok (_, l) => l | _ => [] end.
Definition pipe_start : gtime := mkt 2190 604790000.
Example C84_pipe_nonvacuous : (exists st, items ex_start (map (mkin 0x1234) pipe_bodies) = Ok (st, pipe_items_of pipe_bodies)) /\ Forall (item_ok ex_code_of (fun w => w) Properties_ephout.some_week 18) (pipe_items_of pipe_bodies) /\
  first_epoch_ok (pipe_items_of pipe_bodies) /\ Forall week_ok (real_epochs (pipe_items_of pipe_bodies)) /\ steady (at_ms pipe_start) (real_epochs (pipe_items_of pipe_bodies)) /\ Forall (fun i => is_glo_eph i = false) (pipe_items_of pipe_bodies).
Proof.
  assert (EI : pipe_items_of pipe_bodies = [IMsg (mkin 0x1234 (BGps ex_gps)); IEpoch (at_time 2190 604795000 ex_obs); IMsg (mkin 0x1234 (BRaw 1025 [3; 72; 105])); IEpoch (at_time 2191 0 ex_obs);
    IMsg (mkin 0x1234 (BBias 9 (-735) 0 0 700)); IMsg (mkin 0x1234 BIgnored); IEpoch (at_time 2191 10000 ex_obs)]).
  { unfold pipe_items_of, pipe_bodies. generalize ex_gps. intros s. vm_compute. reflexivity. }
  pose proof ex_gps_ok as EG.
  split; [|rewrite EI; split; [|split; [|split; [|split]]]].
  - unfold pipe_items_of, pipe_bodies. generalize ex_gps. intros s. eexists. vm_compute. reflexivity.
  - assert (SO : forall w x, 0 <= x < WEEK -> item_ok ex_code_of (fun w => w) Properties_ephout.some_week 18 (IEpoch (at_time w x ex_obs))).
    { intros w x H. split; [exact H|]. right. exact (sendable_at w x H). }
    repeat apply Forall_cons; try apply Forall_nil; try (apply SO; unfold WEEK; lia); cbn [item_ok i_sender i_body].
    + exact EG.
    + cbn [body_ok]. left. unfold Tunnel_spec.wf_sbp, RtcmStation_spec.ubits. cbn. repeat split; try lia; try (right; lia); repeat constructor; unfold byte; lia.
    + cbn [body_ok]. unfold StaConv_spec.s16. lia.
    + exact Logic.I.
  - intros pre e post Q FP _. destruct pre as [|i pre]; [discriminate Q|]. injection Q as <- Q. destruct pre as [|i pre]; [injection Q as <- _; discriminate|]. injection Q as <- Q.
    unfold epochs_of in FP. cbn [flat_map app] in FP. inversion FP as [|? ? X _]. discriminate X.
  - repeat constructor; unfold week_ok; cbn; lia.
  - cbn. repeat split; unfold at_ms, epoch_ms, pipe_start, WEEK; cbn; lia.
  - repeat apply Forall_cons; try apply Forall_nil; reflexivity.
Qed.
(** without the ephemeris, computed: time of each observation message and the messages in between, and the program's time at the end *)
Definition pipe_through (bs : list body) : option (gtime * list (out pobs rout)) :=
  match tool_run ex_carrier ex_code_of (fun _ => d0) d0 (fun x => x) 18 ex_start (map (mkin 0x1234) bs) with
  | Ok (_, fs) => option_map (fun r => (snd (fst r), snd r)) (ToolTime_model.tool_run ex_carrier ex_num_of zero_opts (fun _ => false) Properties_rx.ex_utc (fun _ => d0)
      (full_rest Properties_staconv.g0 (fun _ => d0) (fun w => w) Properties_ephout.some_week (fun _ _ => true)) (map Rx_model.payload_of fs) pipe_start (rx_init raux0))
  | _ => None
  end.
Example C84_pipe_result : option_map (fun r => (fst r, map (fun o => match o with OObs _ w x _ os => (w, x, len os) | _ => (0, 0, 0) end) (snd r))) (pipe_through (tl pipe_bodies)) =
  Some (mkt 2191 10000, [(2190, 604795000, 4); (0, 0, 0); (2191, 0, 4); (0, 0, 0); (2191, 10000, 4)]).
Proof. vm_compute. reflexivity. Qed.
Print Assumptions C84_pipe_partial.
Print Assumptions C84_steady_pipe_partial.
Print Assumptions C84_pipe_nonvacuous.
Print Assumptions C84_pipe_result.
