(** C83: rtcm3tosbp -o keeps its own time: a stream of epochs from sbp2rtcm is received completely without any outside time after the start date. *)
From Coq Require Import Permutation.
From Verif Require Import Base Bitstring Bits_model Bitstream_model RtcmFraming_model RtcmFraming_spec Properties_framing Time_model RtcmMsm_model RtcmMsm_spec Signals_model Double_model
  Sbp2Rtcm_model Sbp2Rtcm_spec Sbp2Msm_model Sbp2Msm_spec MsmVal_model MsmVal_spec Properties_msmval RtcmFrameOut_model Tunnel_model StaConv_spec Options_model
  ObsBuffer_model ObsBuffer_spec ObsExcl_spec ObsExcl_proofs Rx_model Rx_spec Rx_proofs RxTx_model RxTx_spec RxTx_proofs Properties_rx Properties_rxtx ToolTime_model ToolTime_spec.
Local Open Scope Z_scope.

Section Closed.
Variables (carrier num_of : code -> Z) (op : opts) (masked : RtcmMsm_model.cons -> bool) (utc_offset : gtime -> Z) (consts : Z -> dbl).
Context {A O : Type}.
Variable rest : Z -> list Z -> rstate pobs (list Z * A) -> A * list O.
Notation rx_run := (rx_run carrier num_of op masked utc_offset consts rest).
Notation tool_run := (tool_run carrier num_of op masked utc_offset consts rest).
(** If for all times of a set the outputs lead to times of this set, the program's own times are in the set. *)
Lemma closed_loop (P : gtime -> Prop) : forall ps s,
  (forall refs, Forall P refs -> length refs = length ps -> exists s' o, rx_run (combine (List.map Some refs) ps) s = Some (s', o) /\ Forall (fun x => forall t, P t -> P (shown t x)) o) ->
  forall t, P t -> exists refs, Forall P refs /\ length refs = length ps /\
    forall s' o, rx_run (combine (List.map Some refs) ps) s = Some (s', o) -> tool_run ps t s = Some (s', fold_left shown o t, o).
Proof.
  induction ps as [|p ps IH]; intros s H t T.
  - exists []. split; [constructor|]. split; [reflexivity|]. intros s' o E. cbn in E. injection E as <- <-. reflexivity.
  - assert (R : forall n, Forall P (repeat t n)) by (intros n; apply Forall_forall; intros x I; apply repeat_spec in I; subst; exact T).
    destruct (H (t :: repeat t (length ps))) as (s0 & o0 & E0 & _); [constructor; [exact T|apply R]|cbn [length]; rewrite repeat_length; reflexivity|].
    cbn [List.map combine Rx_model.rx_run] in E0. destruct (rx_step carrier num_of op masked utc_offset consts rest (Some t) p s) as [[s1 o1]|] eqn:S1; [|discriminate E0]. clear E0.
    assert (H1 : forall refs, Forall P refs -> length refs = length ps -> exists s' o, rx_run (combine (List.map Some refs) ps) s1 = Some (s', o) /\ Forall (fun x => forall t, P t -> P (shown t x)) o /\ Forall (fun x => forall t, P t -> P (shown t x)) o1).
    { intros refs F L. destruct (H (t :: refs)) as (s' & o & E & G); [constructor; assumption|cbn [length]; rewrite L; reflexivity|].
      cbn [List.map combine Rx_model.rx_run] in E. rewrite S1 in E. destruct (rx_run (combine (List.map Some refs) ps) s1) as [[s2 o2]|]; [|discriminate E]. injection E as <- <-. apply Forall_app in G. destruct G as [G1 G2]. eauto. }
    assert (T1 : P (fold_left shown o1 t)).
    { destruct (H1 (repeat t (length ps)) (R _) (repeat_length _ _)) as (_ & _ & _ & _ & G). clear - G T. revert t T. induction G as [|x l X G IH]; intros t T; cbn [fold_left]; [exact T|]. apply IH. apply X. exact T. }
    destruct (IH s1 ltac:(intros refs F L; destruct (H1 refs F L) as (s' & o & E & G & _); eauto) _ T1) as (refs & F & L & K).
    exists (t :: refs). split; [constructor; assumption|]. split; [cbn [length]; rewrite L; reflexivity|]. intros s' o E. cbn [List.map combine Rx_model.rx_run] in E. rewrite S1 in E.
    destruct (rx_run (combine (List.map Some refs) ps) s1) as [[s2 o2]|] eqn:E2; [|discriminate E]. injection E as <- <-. cbn [ToolTime_model.tool_run]. rewrite S1, (K _ _ eq_refl), fold_left_app. reflexivity.
Qed.
Lemma tool_app : forall ps1 ps2 t s s1 t1 o1, tool_run ps1 t s = Some (s1, t1, o1) -> tool_run (ps1 ++ ps2) t s = match tool_run ps2 t1 s1 with Some (s2, t2, o2) => Some (s2, t2, o1 ++ o2) | None => None end.
Proof.
  induction ps1 as [|p ps1 IH]; intros ps2 t s s1 t1 o1 E; cbn [ToolTime_model.tool_run app] in *.
  - injection E as <- <- <-. destruct (tool_run ps2 t s) as [[[? ?] ?]|]; reflexivity.
  - destruct (rx_step carrier num_of op masked utc_offset consts rest (Some t) p s) as [[s' o']|]; [|discriminate E]. destruct (tool_run ps1 (fold_left shown o' t) s') as [[[s2 t2] o2]|] eqn:E2; [|discriminate E].
    injection E as <- <- <-. rewrite (IH ps2 _ _ _ _ _ E2). destruct (tool_run ps2 t2 s2) as [[[s3 t3] o3]|]; [rewrite app_assoc|]; reflexivity.
Qed.
End Closed.

(** ** the times of an epoch's messages *)
Lemma shown_seen {O} (o : list (out pobs O)) : forall t, fold_left shown o t = fold_left shown (seen o) t.
Proof. induction o as [|x o IH]; intros t; [reflexivity|]. destruct x; cbn [seen filter fold_left shown]; apply IH. Qed.
Lemma forall_seen {O} (Q : out pobs O -> Prop) (o : list (out pobs O)) : (forall x, ~ (exists a b c d e, x = OObs a b c d e) -> Q x) -> Forall Q (seen o) -> Forall Q o.
Proof.
  intros H F. apply Forall_forall. intros x I. destruct x as [a b c d e| | | |]; try (apply H; intros (? & ? & ? & ? & ? & E); discriminate E).
  rewrite Forall_forall in F. apply F. apply filter_In. split; [exact I|reflexivity].
Qed.
Lemma messages_times {O} sender w tow os (g : list (out pobs O)) : epoch_messages sender w tow os g -> g <> [] /\ Forall (fun x => exists n l, x = OObs sender w tow n l) g.
Proof.
  intros (parts & _ & L & _ & _ & H). split.
  - intros ->. destruct parts as [|p parts]; [cbn in L; lia|]. assert (X : nth_error (@nil (out pobs O)) 0 = Some (OObs sender w tow (16 * len (p :: parts) + Z.of_nat 0) p)) by (apply H; exists p; split; reflexivity). discriminate X.
  - apply Forall_forall. intros x I. apply In_nth_error in I. destruct I as (i & I). apply H in I. destruct I as (p & _ & ->). eauto.
Qed.
Lemma shown_all {O} w tow (g : list (out pobs O)) t : g <> [] -> Forall (fun x => exists sender n l, x = OObs sender w tow n l) g -> -32768 <= w < 32768 ->
  fold_left shown g t = if tow =? 0 then t else mkt w tow.
Proof.
  intros N F W. assert (TS : to_signed 16 w = w) by (unfold to_signed; change (2 ^ 16) with 65536; change (2 ^ (16 - 1)) with 32768; destruct (Z.ltb_spec (w mod 65536) 32768); lia).
  assert (K : forall g, Forall (fun x : out pobs O => exists sender n l, x = OObs sender w tow n l) g -> fold_left shown g (if tow =? 0 then t else mkt w tow) = if tow =? 0 then t else mkt w tow).
  { clear g N F. intros g F. induction F as [|x g (? & ? & ? & ->) F IH]; [reflexivity|]. cbn [fold_left shown]. rewrite TS. destruct (tow =? 0); exact IH. }
  destruct F as [|x g (? & ? & ? & ->) F]; [contradiction|]. cbn [fold_left shown]. rewrite TS. apply K. exact F.
Qed.

(** ** streams *)
(** A stream of epochs that follow one another (see [followed]) is received completely: rtcm3tosbp -o, given a start date in step with the first epoch and nothing but the frames
    after that - in pieces of any size, with garbage in between -, sends exactly these epochs and ends with the time of the last one.  [leap] is the UTC offset all the time. *)
Theorem C83_stream_followed_partial : forall carrier num_of code_of tx masked consts (A O : Type) (rest : Z -> list Z -> rstate pobs (list Z * A) -> A * list O) a cfg leap es t,
  carriers_ok carrier -> (forall k, code_of (num_of k) = k) -> fcn_map_ok tx ->
  c_type cfg = 4 \/ c_type cfg = 5 -> c_leap cfg = Some leap -> 0 <= leap <= 30 ->
  Forall (sendable code_of) es -> Forall week_ok es -> (forall e es', es = e :: es' -> oh_tow (e_hdr e) <> 0) -> followed code_of leap t es ->
  exists fss, Forall2 (fun e fs => out_frames carrier code_of tx cfg e = Ok fs /\ Forall valid_frame fs) es fss /\
  forall chunks, Forall good_read chunks -> garbage_separated (concat fss) (concat chunks) ->
  exists s' o gs, tool_bytes carrier num_of zero_opts masked (fun _ => leap) consts rest chunks t (rx_init a) = Some (s', fold_left time_after es t, o) /\ seen o = concat gs /\
    Forall2 (arrived carrier code_of (c_type cfg) tx (repeat 255 29) masked) es gs.
Proof.
  intros carrier num_of code_of tx masked consts A O rest a cfg leap es t CAR NUM TX TY LK LR F W T0 FO.
  set (map0 := repeat 255 29).
  assert (MAP : fcn_map_ok map0) by (split; [reflexivity|]; apply Forall_forall; intros v I; apply repeat_spec in I; right; exact I).
  assert (AG : maps_agree tx map0).
  { intros v Hv. left. unfold map0, znth. destruct (nth_in_or_default (Z.to_nat v) (repeat 255 29) 255) as [I|I]; [apply repeat_spec in I; exact I|exact I]. }
  assert (LR' : -128 <= leap <= 127) by lia.
  assert (X : forall es, Forall (sendable code_of) es -> Forall week_ok es -> exists fss, Forall2 (fun e fs => out_frames carrier code_of tx cfg e = Ok fs /\ Forall valid_frame fs) es fss /\
    forall t (s : rstate pobs (list Z * A)), followed code_of leap t es -> fcns s = map0 -> r_buf s = [] -> ((forall e es', es = e :: es' -> oh_tow (e_hdr e) <> 0) \/ gps_time_valid (r_last_gps s) = true) ->
    exists s' o gs, tool_run carrier num_of zero_opts masked (fun _ => leap) consts rest (List.map payload_of (concat fss)) t s = Some (s', fold_left time_after es t, o) /\ seen o = concat gs /\
      Forall2 (arrived carrier code_of (c_type cfg) tx map0 masked) es gs).
  { clear es t F W T0 FO. induction es as [|e es IH]; intros F W.
    - exists []. split; [constructor|]. intros t s _ FM B X0. exists s, [], []. split; [reflexivity|]. split; [reflexivity|constructor].
    - inversion F as [|? ? SE F']; subst. inversion W as [|? ? WE W']; subst. destruct (IH F' W') as (fss & G & R).
      destruct (one_epoch carrier num_of code_of masked (fun _ => leap) consts rest CAR NUM tx map0 cfg leap TX MAP AG TY LK LR' e SE) as (fs & E & V & _ & RE).
      exists (fs :: fss). split; [constructor; [split; assumption|exact G]|]. intros t s (I & FO) FM B X0.
      set (P := in_step (fun _ => leap) leap (has_glo code_of (e_obs e)) (epoch_ms e)).
      assert (SELF : P (mkt (oh_wn (e_hdr e)) (oh_tow (e_hdr e)))).
      { destruct SE as (TW & _). unfold week_ok in WE. unfold P, in_step, good_time, plausible, at_ms, epoch_ms, WEEK in *. cbn [wn tow]. clear - TW WE LR. repeat split; try lia. }
      assert (XO : oh_tow (e_hdr e) <> 0 \/ gps_time_valid (r_last_gps s) = true) by (destruct X0 as [X0|X0]; [left; eapply X0; reflexivity|right; exact X0]).
      assert (AT : forall g : list (out pobs O), arrived carrier code_of (c_type cfg) tx map0 masked e g -> g <> [] /\ Forall (fun x => exists sender n l, x = OObs sender (oh_wn (e_hdr e)) (oh_tow (e_hdr e)) n l) g).
      { intros g (ord & opts & _ & _ & M). apply messages_times in M. destruct M as [N M]. split; [exact N|]. eapply Forall_impl; [|exact M]. intros x (n & l & ->). eauto. }
      assert (WR : -32768 <= oh_wn (e_hdr e) < 32768) by (unfold week_ok in WE; lia).
      destruct (closed_loop carrier num_of zero_opts masked (fun _ => leap) consts rest P (List.map payload_of fs) s) with (t := t) as (refs & FR & LF & K).
      { intros refs FR LF. rewrite map_length in LF. destruct (RE refs FR LF s FM B XO) as (s1 & o1 & E1 & _ & _ & _ & AR). exists s1, o1. split; [exact E1|].
        apply forall_seen.
        - intros x N t' T'. destruct x; try exact T'. exfalso. apply N. eauto 6.
        - destruct (AT _ AR) as (_ & FX). eapply Forall_impl; [|exact FX]. intros x (sd & n & l & ->) t' T'.
          replace (shown t' (OObs sd (oh_wn (e_hdr e)) (oh_tow (e_hdr e)) n l)) with (fold_left shown [@OObs pobs O sd (oh_wn (e_hdr e)) (oh_tow (e_hdr e)) n l] t') by reflexivity.
          rewrite (shown_all (oh_wn (e_hdr e)) (oh_tow (e_hdr e))); [|discriminate|constructor; [eauto|constructor]|exact WR]. destruct (_ =? 0); [exact T'|exact SELF]. }
      { exact I. }
      rewrite map_length in LF. destruct (RE refs FR LF s FM B XO) as (s1 & o1 & E1 & B1 & F1 & LA & AR1). specialize (K _ _ E1).
      destruct (AT _ AR1) as (N1 & FX). assert (TM : fold_left shown o1 t = time_after t e) by (rewrite shown_seen; apply shown_all; assumption). rewrite TM in K.
      destruct (R (time_after t e) s1 FO F1 B1) as (s2 & o2 & gs & E2 & S2 & AR2); [right; destruct LA as (V1 & _ & V2 & _); rewrite V2; exact V1|].
      exists s2, (o1 ++ o2), (seen o1 :: gs). split; [|split; [rewrite ObsExcl_proofs.seen_app, S2; reflexivity|constructor; assumption]].
      cbn [concat fold_left]. rewrite List.map_app, (tool_app _ _ _ _ _ _ _ _ _ _ _ _ _ _ K), E2. reflexivity. }
  destruct (X es F W) as (fss & G & R). exists fss. split; [exact G|]. intros chunks GR GS.
  destruct (C03_every_frame_delivered chunks (concat fss) GR GS) as (r & E).
  destruct (R t (rx_init a) FO eq_refl eq_refl (or_introl T0)) as (s' & o & gs & ER & S & AR). exists s', o, gs. split; [|split; assumption].
  unfold tool_bytes. rewrite E. exact ER.
Qed.

Lemma steady_followed code_of leap : 0 <= leap <= 30 -> forall es t x, good_time (fun _ => leap) t -> (x = at_ms t \/ (x mod WEEK = 0 /\ at_ms t < x <= at_ms t + 15000)) ->
  Forall (sendable code_of) es -> Forall week_ok es -> steady x es -> followed code_of leap t es.
Proof.
  intros LR. induction es as [|e es IH]; intros t x GT X F W S; [exact I|]. inversion F as [|? ? SE F']; subst. inversion W as [|? ? WE W']; subst. destruct S as [S1 S2]. cbn [followed]. split.
  - split; [exact GT|]. split; [unfold WEEK; lia|]. intros _. split; [reflexivity|]. unfold plausible. lia.
  - destruct SE as (TW & _). apply (IH _ (epoch_ms e)); try assumption.
    + unfold time_after. destruct (oh_tow (e_hdr e) =? 0); [exact GT|]. unfold good_time, week_ok, WEEK in *. cbn [wn tow]. lia.
    + unfold time_after. destruct (Z.eqb_spec (oh_tow (e_hdr e)) 0) as [Z0|NZ].
      * right. assert (M : epoch_ms e mod WEEK = 0) by (unfold epoch_ms; rewrite Z0, Z.add_0_r, Z.mul_comm; apply Z.mod_mul; discriminate). split; [exact M|].
        destruct X as [->|(X1 & X2)]; [lia|]. exfalso. clear - X1 M S1. unfold WEEK in *. lia.
      * left. unfold at_ms, epoch_ms, WEEK. cbn [wn tow]. ring.
Qed.
(** Epochs in time order, at most 15 s apart, GPS weeks 3 to 32764: whatever their constellations, rtcm3tosbp -o started with a date at most 15 s before the first one receives
    them all - also over the week end, where the program's time stands still for one epoch. *)
Theorem C83_steady_stream_partial : forall carrier num_of code_of tx masked consts (A O : Type) (rest : Z -> list Z -> rstate pobs (list Z * A) -> A * list O) a cfg leap es t,
  carriers_ok carrier -> (forall k, code_of (num_of k) = k) -> fcn_map_ok tx ->
  c_type cfg = 4 \/ c_type cfg = 5 -> c_leap cfg = Some leap -> 0 <= leap <= 30 ->
  Forall (sendable code_of) es -> Forall week_ok es -> (forall e es', es = e :: es' -> oh_tow (e_hdr e) <> 0) -> 2 < wn t < 32765 -> 0 <= tow t < 604800000 -> steady (at_ms t) es ->
  exists fss, Forall2 (fun e fs => out_frames carrier code_of tx cfg e = Ok fs /\ Forall valid_frame fs) es fss /\
  forall chunks, Forall good_read chunks -> garbage_separated (concat fss) (concat chunks) ->
  exists s' o gs, tool_bytes carrier num_of zero_opts masked (fun _ => leap) consts rest chunks t (rx_init a) = Some (s', fold_left time_after es t, o) /\ seen o = concat gs /\
    Forall2 (arrived carrier code_of (c_type cfg) tx (repeat 255 29) masked) es gs.
Proof.
  intros carrier num_of code_of tx masked consts A O rest a cfg leap es t CAR NUM TX TY LK LR F W T0 WT TT S.
  apply (C83_stream_followed_partial carrier num_of code_of tx masked consts A O rest a cfg leap es t); try assumption.
  apply (steady_followed code_of leap LR es t (at_ms t)); try assumption; [unfold good_time; lia|left; reflexivity].
Qed.

(** ** concrete streams *)
Definition tool_through (t : gtime) (es : list Sbp2Rtcm_model.epoch) : option (gtime * list (out pobs unit)) :=
  match Conv_model.all_ok (List.map (out_frames ex_carrier ex_code_of ex_fcns (ex_cfg 5)) es) with
  | Ok fss => option_map (fun r => (snd (fst r), snd r)) (tool_run ex_carrier ex_num_of zero_opts (fun _ => false) ex_utc (fun _ => d0) ex_rest (List.map payload_of (concat fss)) t (rx_init tt))
  | _ => None
  end.
Definition times (r : option (gtime * list (out pobs unit))) : option (gtime * list (Z * Z * Z)) :=
  option_map (fun r => (fst r, flat_map (fun o => match o with OObs _ w x _ os => [(w, x, len os)] | _ => [] end) (snd r))) r.
(** over a week end *)
Definition at_time (w x : Z) (os : list pobs) : Sbp2Rtcm_model.epoch := mkepoch 0x1234 (mkohdr x 0 w 16) os.
Definition week_end : list Sbp2Rtcm_model.epoch := [at_time 2190 604795000 (e_obs ex_epoch); at_time 2191 0 (e_obs ex_epoch); at_time 2191 10000 (e_obs ex_epoch)].
Lemma sendable_at w x : 0 <= x < WEEK -> sendable ex_code_of (at_time w x (e_obs ex_epoch)).
Proof. intros H. destruct ex_sendable as (_ & S). split; [exact H|exact S]. Qed.
Example C83_nonvacuous : Forall (sendable ex_code_of) week_end /\ Forall week_ok week_end /\ steady (at_ms (mkt 2190 604790000)) week_end.
Proof.
  split; [unfold week_end; repeat (apply Forall_cons; [apply sendable_at; unfold WEEK; lia|]); apply Forall_nil|]. split; [repeat constructor; unfold week_ok; cbn; lia|]. cbn. repeat split; unfold at_ms, epoch_ms, WEEK; cbn; lia.
Qed.
Example C83_result : times (tool_through (mkt 2190 604790000) week_end) = Some (mkt 2191 10000, [(2190, 604795000, 4); (2191, 0, 4); (2191, 10000, 4)]).
Proof. vm_compute. reflexivity. Qed.
(** finding: GLONASS observations alone, one epoch a minute: the first epoch is received, and no later one ever (empty epochs of time 0 are sent instead), since the time is taken from received epochs only
    and each further epoch is farther away from it than the plausibility window allows *)
Definition glo_only : list pobs := filter (fun o => match cons_of (ex_code_of (o_code o)) with Some cGLO => true | _ => false end) (e_obs ex_epoch).
Definition minutes : list Sbp2Rtcm_model.epoch := List.map (fun k => at_time 2190 (345600000 + 60000 * k) glo_only) [0; 1; 2; 3; 4].
Theorem C83_glonass_every_minute_refuted : Forall (sendable ex_code_of) minutes /\ Forall week_ok minutes /\
  times (tool_through (mkt 2190 345599000) minutes) = Some (mkt 2190 345600000, [(2190, 345600000, 1); (0, 0, 0); (0, 0, 0); (0, 0, 0); (0, 0, 0)]) /\
  times (tool_through (mkt 2190 345599000) (List.map (fun k => at_time 2190 (345600000 + 60000 * k) (e_obs ex_epoch)) [0; 1; 2])) =
    Some (mkt 2190 345720000, [(2190, 345600000, 4); (2190, 345660000, 4); (2190, 345720000, 4)]).
Proof.
  split.
  { unfold minutes. cbn [List.map]. assert (S : forall x, 0 <= x < WEEK -> sendable ex_code_of (at_time 2190 x glo_only)).
    { intros x H. split; [exact H|]. cbn [at_time e_obs]. 
      assert (EQ : exists o, glo_only = [o] /\ In o (e_obs ex_epoch) /\ cons_of (ex_code_of (o_code o)) = Some cGLO) by (eexists; split; [vm_compute; reflexivity|split; [cbn; tauto|reflexivity]]).
      destruct EQ as (o & -> & I & C). split; [split; [|split]|split; [|split]].
      - destruct ex_epoch_ok as (P & _). rewrite Forall_forall in P. apply Forall_cons; [apply P; exact I|apply Forall_nil].
      - apply NoDup_cons; [intros []|apply NoDup_nil].
      - intros c. unfold distinct_sats, distinct_sigs, obs_of. cbn [filter]. destruct (_ : bool); cbn; lia.
      - pose proof ex_in_range as R. rewrite Forall_forall in R. apply Forall_cons; [apply R; exact I|apply Forall_nil].
      - cbn; lia.
      - apply Exists_cons_hd. unfold of_cons, sig_of. rewrite C. discriminate. }
    repeat (apply Forall_cons; [apply S; unfold WEEK; lia|]). apply Forall_nil. }
  split; [repeat constructor; unfold week_ok; cbn; lia|]. split; vm_compute; reflexivity.
Qed.
Print Assumptions C83_stream_followed_partial.
Print Assumptions C83_steady_stream_partial.
Print Assumptions C83_nonvacuous.
Print Assumptions C83_result.
Print Assumptions C83_glonass_every_minute_refuted.
