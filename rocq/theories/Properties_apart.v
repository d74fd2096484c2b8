(** C87: the conversions of rtcm3tosbp do not interfere with each other. *)
From Verif Require StaConv_model.
From Verif Require Import Base Bits_model Bitstream_model RtcmFraming_model Time_model Double_model RtcmMsm_model RtcmStation_model Signals_model Sbp2Rtcm_model Sbp2Msm_model MsmVal_model Tunnel_model EphOut_model Options_model ObsBuffer_model Rx_model Relay_model Apart_spec Apart_proofs
  Properties_msmval Properties_msmrx Properties_rx.
Local Open Scope Z_scope.

(** Observations: the SBP observation messages depend only on the payloads of the types 1002, 1004, 1010, 1012, 1020 and 1070 to 1229 and on the time at each of them: whatever
    other messages come in between, and whatever the conversions of all other messages do ([rest1], [rest2]), the same observation messages are sent in the same order; and the
    receiver fails (None: undefined behaviour or failed assertion) in the observation code for one stream exactly if it does for the other. *)
Theorem C87_observations_apart : forall carrier num_of op masked utc_offset consts (A1 O1 A2 O2 : Type)
    (rest1 : Z -> list Z -> rstate pobs (list Z * A1) -> A1 * list O1) (rest2 : Z -> list Z -> rstate pobs (list Z * A2) -> A2 * list O2) a1 a2 l1 l2,
  filter (fun e => concerns_observations (snd e)) l1 = filter (fun e => concerns_observations (snd e)) l2 ->
  option_map (fun r => observations (snd r)) (rx_run carrier num_of op masked utc_offset consts rest1 l1 (rx_init a1)) =
  option_map (fun r => observations (snd r)) (rx_run carrier num_of op masked utc_offset consts rest2 l2 (rx_init a2)).
Proof.
  intros carrier num_of op masked utc consts A1 O1 A2 O2 rest1 rest2 a1 a2 l1 l2 F.
  pose proof (run_skip carrier num_of op masked utc consts rest1 l1 (rx_init a1)) as Q1. pose proof (run_skip carrier num_of op masked utc consts rest2 l2 (rx_init a2)) as Q2. rewrite F in Q1.
  assert (S : same (rx_init a1) (rx_init a2)) by (unfold same; tauto).
  pose proof (run_same carrier num_of op masked utc consts rest1 rest2 (filter (fun e => concerns_observations (snd e)) l2) (rx_init a1) (rx_init a2) S) as Q.
  destruct (rx_run _ _ _ _ _ _ rest1 l1 _) as [[x1 o1]|], (rx_run _ _ _ _ _ _ rest2 l2 _) as [[x2 o2]|], (rx_run _ _ _ _ _ _ rest1 (filter _ l2) _) as [[y1 p1]|], (rx_run _ _ _ _ _ _ rest2 (filter _ l2) _) as [[y2 p2]|];
    cbn [rel option_map snd] in *; try tauto. destruct Q1 as [_ Q1], Q2 as [_ Q2], Q as [_ Q]. congruence.
Qed.

Section Others.
Variables (g : msg_1005) (consts : Z -> dbl) (adj : Z -> Z) (mw : Z -> Z -> option Z) (sbp_ok : Z -> list Z -> bool) (utc_offset : gtime -> Z).
Definition known (tin : option gtime) : bool := match tin with Some _ => true | None => false end.
(** the stream for the tunnel model, and the ephemerides of a stream, each payload by itself *)
Definition events (l : list (option gtime * list Z)) : list rx_event := List.map (fun '(tin, p) => mkrx (known tin) p (len p)) l.
Definition ephemerides_of (l : list (option gtime * list Z)) : list (Z * eph_msg) :=
  flat_map (fun '(tin, p) => eph_rx consts adj mw (known tin) (match tin with Some t => t | None => T_UNKNOWN end) (match tin with Some t => Some (utc_offset t) | None => None end) p) l.

Lemma kinds (o : list (out pobs rout)) : stations o = flat_map (fun x => match x with RSta m => [m] | _ => [] end) (others o) /\ ephemerides o = flat_map (fun x => match x with REph m => [m] | _ => [] end) (others o) /\
  tunnelled o = flat_map (fun x => match x with RTun m => [m] | _ => [] end) (others o).
Proof.
  induction o as [|x o (A & B & C)]; [repeat split|]. unfold stations, ephemerides, tunnelled, others in *. cbn [flat_map]. destruct x as [| | | |[]]; cbn [flat_map app]; repeat split; congruence.
Qed.
Lemma sta_ok_ub tin last p : (exists r, StaConv_model.sta_rx g tin last p = Ok r) \/ StaConv_model.sta_rx g tin last p = Ub.
Proof.
  assert (I : forall lo hi o, (exists n, StaConv_model.to_int lo hi o = Ok n) \/ StaConv_model.to_int lo hi o = Ub) by (intros lo hi [n|]; unfold StaConv_model.to_int; [destruct (_ && _)|]; eauto).
  assert (S : forall d, (exists n, StaConv_model.s16_bias d = Ok n) \/ StaConv_model.s16_bias d = Ub) by (intros d; apply I).
  assert (B4 : forall (a b c d : dbl) (f : Z -> Z -> Z -> Z -> StaConv_model.smsg), let r := bind (StaConv_model.s16_bias a) (fun a => bind (StaConv_model.s16_bias b) (fun b => bind (StaConv_model.s16_bias c) (fun c => bind (StaConv_model.s16_bias d) (fun d => Ok (f a b c d))))) in (exists m, r = Ok m) \/ r = Ub).
  { intros a b c d f. cbv zeta. destruct (S a) as [[? ->] | ->]; [|right; reflexivity]. cbn [bind]. destruct (S b) as [[? ->] | ->]; [|right; reflexivity]. cbn [bind]. destruct (S c) as [[? ->] | ->]; [|right; reflexivity]. cbn [bind]. destruct (S d) as [[? ->] | ->]; [|right; reflexivity]. left. eexists. reflexivity. }
  assert (M33 : forall m, (exists s, StaConv_model.m1033_to_sbp m = Ok s) \/ StaConv_model.m1033_to_sbp m = Ub).
  { intros m. unfold StaConv_model.m1033_to_sbp. destruct (StaConv_model.find_row _ _) as [[[n mask] [[[a b] c] d]]|]; [|left; eexists; reflexivity]. apply (B4 a b c d (fun a b c d => StaConv_model.SGloBiases (ObsBuffer_model.sender_of (m33_stn_id m)) mask a b c d)). }
  assert (M30 : forall m, (exists s, StaConv_model.m1230_to_sbp m = Ok s) \/ StaConv_model.m1230_to_sbp m = Ub).
  { intros m. unfold StaConv_model.m1230_to_sbp. destruct (_ =? 0); [|left; eexists; reflexivity]. apply (B4 _ _ _ _ (fun a b c d => StaConv_model.SGloBiases (ObsBuffer_model.sender_of (m230_stn_id m)) (fdma_signal_mask m) a b c d)). }
  unfold StaConv_model.sta_rx. destruct (_ <? _); [left; eexists; reflexivity|]. cbv zeta. destruct (_ =? 1005); [destruct (run_dec _ _); eauto|]. destruct (_ =? 1006); [destruct (run_dec _ _); eauto|].
  destruct tin as [t|]; [|eauto]. destruct (_ =? 1033).
  - destruct (run_dec _ _) as [m| | |]; eauto. destruct (StaConv_model.no_1230_received t last); [|eauto]. destruct (M33 m) as [[s ->] | ->]; [left; eexists; reflexivity|right; reflexivity].
  - destruct (_ =? 1230); [|eauto]. destruct (run_dec _ _) as [m| | |]; eauto. destruct (M30 m) as [[s ->] | ->]; [left; eexists; reflexivity|right; reflexivity].
Qed.
Lemma tun_ok_ub b p n w : (exists r, tunnel_rx sbp_ok b p n w = Ok r) \/ tunnel_rx sbp_ok b p n w = Ub.
Proof.
  unfold tunnel_rx. destruct (_ <? _); [eauto|]. cbv zeta. destruct (_ && _); [eauto|]. destruct (_ =? 1029); [destruct (run_dec _ _); eauto|]. destruct (existsb _ _); [eauto|]. destruct (_ =? 4062); [destruct (run_dec _ _); eauto|]. destruct (_ =? 4075); [|eauto].
  destruct (run_dec _ _) as [[? ?]| | |]; eauto.
Qed.
Lemma step_kinds tin p x x' os : rest_of utc_offset consts g adj mw sbp_ok tin p x = (x', os) -> ~ In RUndefined os ->
  let k := flat_map (fun x => match x with RSta m => [m] | _ => [] end) os in let t := flat_map (fun x => match x with RTun m => [m] | _ => [] end) os in let e := flat_map (fun x => match x with REph m => [m] | _ => [] end) os in
  StaConv_model.sta_rx g tin (fst x) p = Ok (fst x', k) /\ tunnel_rx sbp_ok (known tin) p (len p) (snd x) = Ok (snd x', t) /\ e = ephemerides_of [(tin, p)].
Proof.
  assert (P1 : forall l, flat_map (fun x => match x with RSta m => [m] | _ => [] end) (List.map RSta l) = l) by (induction l as [|y l IH]; [reflexivity|cbn; f_equal; exact IH]).
  assert (P2 : forall l, flat_map (fun x => match x with RTun m => [m] | _ => [] end) (List.map RTun l) = l) by (induction l as [|y l IH]; [reflexivity|cbn; f_equal; exact IH]).
  assert (P3 : forall l, flat_map (fun x => match x with REph m => [m] | _ => [] end) (List.map REph l) = l) by (induction l as [|y l IH]; [reflexivity|cbn; f_equal; exact IH]).
  assert (N1 : forall l, flat_map (fun x => match x with RSta m => [m] | _ => [] end) (List.map REph l) = []) by (induction l as [|y l IH]; [reflexivity|exact IH]).
  assert (N2 : forall l, flat_map (fun x => match x with RSta m => [m] | _ => [] end) (List.map RTun l) = []) by (induction l as [|y l IH]; [reflexivity|exact IH]).
  assert (N3 : forall l, flat_map (fun x => match x with RTun m => [m] | _ => [] end) (List.map RSta l) = []) by (induction l as [|y l IH]; [reflexivity|exact IH]).
  assert (N4 : forall l, flat_map (fun x => match x with RTun m => [m] | _ => [] end) (List.map REph l) = []) by (induction l as [|y l IH]; [reflexivity|exact IH]).
  assert (N5 : forall l, flat_map (fun x => match x with REph m => [m] | _ => [] end) (List.map RSta l) = []) by (induction l as [|y l IH]; [reflexivity|exact IH]).
  assert (N6 : forall l, flat_map (fun x => match x with REph m => [m] | _ => [] end) (List.map RTun l) = []) by (induction l as [|y l IH]; [reflexivity|exact IH]).
  intros E U. unfold rest_of in E. destruct x as [last w]. fold (known tin) in E. cbn [fst snd].
  unfold ephemerides_of. cbn [flat_map]. rewrite app_nil_r. set (ep := eph_rx _ _ _ _ _ _ _) in *. clearbody ep.
  destruct (sta_ok_ub tin last p) as [[[last' o1] E1] | E1]; rewrite E1 in E |- *; destruct (tun_ok_ub (known tin) p (len p) w) as [[[w' o3] E3] | E3]; rewrite E3 in E |- *; cbn [of_res] in E; injection E as <- <-.
  2-4: exfalso; apply U; rewrite !in_app_iff; cbn [In]; tauto.
  rewrite !app_nil_r, !flat_map_app, P1, P2, P3, N1, N2, N3, N4, N5, N6, !app_nil_r. cbn [app fst snd]. repeat split.
Qed.
Variables (carrier num_of : code -> Z) (op : opts) (masked : RtcmMsm_model.cons -> bool).
Notation frest := (full_rest g consts adj mw sbp_ok).
Lemma run_kinds l : forall (s s' : rstate pobs (list Z * raux)) o, Rx_model.rx_run carrier num_of op masked utc_offset consts frest l s = Some (s', o) -> ~ In (OOther RUndefined) o ->
  StaConv_model.rx_run g (fst (aux_of s)) l = Ok (fst (aux_of s'), stations o) /\ tunnel_run sbp_ok (snd (aux_of s)) (events l) = Ok (snd (aux_of s'), tunnelled o) /\ ephemerides o = ephemerides_of l.
Proof.
  induction l as [|[tin p] l IH]; intros s s' o E U; cbn [Rx_model.rx_run] in E; [injection E as <- <-; repeat split|].
  destruct (rx_step _ _ _ _ _ _ _ tin p s) as [[a q]|] eqn:E1; [|discriminate]. destruct (Rx_model.rx_run _ _ _ _ _ _ _ l a) as [[b q']|] eqn:E2; [|discriminate]. injection E as <- <-.
  assert (UO : forall q : list (out pobs rout), In RUndefined (others q) -> In (OOther RUndefined) q).
  { intros z H. unfold others in H. apply in_flat_map in H. destruct H as (y & I & J). destruct y; try destruct J as [J|[]]; try destruct J. subst. exact I. }
  apply IH in E2; [|intros H; apply U; apply in_or_app; right; exact H]. destruct E2 as (S2 & T2 & P2). apply step_rest in E1. apply step_kinds in E1; [|intros H; apply U; apply in_or_app; left; exact (UO _ H)]. destruct E1 as (S1 & T1 & P1).
  destruct (kinds q) as (K1 & K2 & K3). cbv zeta in *. rewrite <- K1 in S1. rewrite <- K3 in T1. rewrite <- K2 in P1.
  cbn [StaConv_model.rx_run events List.map tunnel_run rx_solved rx_mem rx_len]. rewrite S1. cbn [bind]. rewrite S2. cbn [bind]. rewrite T1. cbn [bind]. fold (events l). rewrite T2. cbn [bind].
  unfold stations, tunnelled, ephemerides in *. rewrite !flat_map_app. split; [reflexivity|]. split; [reflexivity|]. rewrite P1, P2. unfold ephemerides_of. cbn [flat_map]. rewrite app_nil_r. reflexivity.
Qed.
End Others.

(** The other messages: in any stream, whatever observations it contains, the base positions and biases are those of C66 and C67 for the stream, the tunnelled, log and warning messages
    those of C68 to C72 for the stream, and the ephemerides those of the single payloads (C78 and before).  [RUndefined]: undefined behaviour in one of these conversions *)
Theorem C87_others_apart : forall carrier num_of op masked utc_offset consts g adj mw sbp_ok l s' o,
  rx_run carrier num_of op masked utc_offset consts (full_rest g consts adj mw sbp_ok) l (rx_init raux0) = Some (s', o) -> ~ In (OOther RUndefined) o ->
  (exists last, StaConv_model.rx_run g T_UNKNOWN l = Ok (last, stations o)) /\
  (exists warned, tunnel_run sbp_ok false (events l) = Ok (warned, tunnelled o)) /\
  ephemerides o = ephemerides_of consts adj mw utc_offset l.
Proof.
  intros carrier num_of op masked utc consts g adj mw sbp_ok l s' o E U. destruct (run_kinds g consts adj mw sbp_ok utc carrier num_of op masked l _ _ _ E U) as (A & B & C).
  split; [eexists; exact A|]. split; [eexists; exact B|exact C].
Qed.

(** ** A concrete case: the stream of C85 with station messages and an MSM1 message in between *)
Definition ex_at : gtime := mkt 2190 345600000.
Definition ex_1230 : list Z := fst (encode_1230 (mk1230 3 0 5 0 (-7) 0 32767) (repeat 0 19)).
Definition ex_1033 : list Z := fst (encode_1033 (mk1033 3 [72; 105] 9 [49] [84; 80; 83] [49; 46; 50] [255]) (repeat 0 60)).
Definition ex_mixed : list (option gtime * list Z) :=
  [(None, [0x42; 0xF0; 0x05; 0x04; 0x8D]); (Some ex_at, ex_1230)] ++ ex_msm_events ++ [(Some ex_at, ex_1033); (None, [0xFF; 0x00; 0x11])] ++ ex_leg_events ++ [(Some (mkt 2190 345900000), ex_1033); (Some ex_at, [0x42; 0xF0; 0x05; 0x04; 0x8D])].
Definition ex_frest : Z -> list Z -> rstate pobs (list Z * raux) -> raux * list rout := full_rest (mk1005 0 0 0 0 0 0 0 0 0 0 0) (fun _ => d0) (fun w => w) (fun _ _ => None) (fun _ _ => true).
Definition ex_mixed_run := rx_run ex_carrier ex_num_of ex_opts (fun _ => false) ex_utc (fun _ => d0) ex_frest ex_mixed (rx_init raux0).
Definition ex_kind (m : out pobs rout) : Z * Z :=
  match m with OObs _ _ _ _ os => (1, len os) | OOther (RSta _) => (2, 0) | OOther (RTun _) => (3, 0) | OOther (REph _) => (4, 0) | OOther RUndefined => (5, 0) | _ => (6, 0) end.
(** hypotheses of both theorems; what comes out: the warning (once), the biases, an ephemeris, two observation messages, the second 1033 (the first one comes too soon after the 1230) *)
Example C87_nonvacuous : List.filter (fun e => concerns_observations (snd e)) ex_mixed <> (ex_mixed) /\ exists s' o, ex_mixed_run = Some (s', o) /\ ~ In (OOther RUndefined) o /\ map ex_kind o = [(3, 0); (2, 0); (4, 0); (1, 2); (1, 5); (2, 0)] /\ len (observations o) = 2 /\ len (stations o) = 2 /\ len (tunnelled o) = 1.
Proof.
  split; [intros E; apply (f_equal (@length _)) in E; vm_compute in E; discriminate E|].
  assert (E : option_map (fun x => (map ex_kind (snd x), len (observations (snd x)), len (stations (snd x)), len (tunnelled (snd x)))) ex_mixed_run = Some ([(3, 0); (2, 0); (4, 0); (1, 2); (1, 5); (2, 0)], 2, 2, 1)) by (vm_compute; reflexivity).
  destruct ex_mixed_run as [[s' o]|]; [|discriminate E]. exists s', o. cbn [option_map snd] in E. injection E as E1 E2 E3 E4. repeat split; try assumption.
  intros I. apply (in_map ex_kind) in I. rewrite E1 in I. cbn [ex_kind In] in I. intuition discriminate.
Qed.
Print Assumptions C87_observations_apart.
Print Assumptions C87_others_apart.
Print Assumptions C87_nonvacuous.
