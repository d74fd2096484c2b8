(** C86: what sbp2rtcm and rtcm3tosbp have relayed once they relay again without any change. *)
From Coq Require Import Reals Permutation Lra.
From Verif Require Conv_model.
From Verif Require Import Base RtcmFraming_model RtcmFraming_spec Time_model RtcmMsm_model RtcmMsm_spec Signals_model Double_model Sbp2Rtcm_model Sbp2Rtcm_spec Sbp2Msm_model Sbp2Msm_spec MsmVal_model MsmVal_spec Sbp2Rtcm_proofs Properties_sbp2rtcm Properties_msmval
  RtcmFrameOut_model Options_model ObsBuffer_model ObsBuffer_spec ObsExcl_spec ObsExcl_proofs Rx_model Rx_spec Rx_proofs RxTx_model RxTx_spec RxTx_proofs Properties_rxtx ObsOut_spec ObsOut_proofs ObsOut_obs_proofs Settled_spec Settled_proofs.
Local Open Scope Z_scope.

(** the observations of well-formed messages are well-formed *)
Lemma messages_obs {O} (Q : pobs -> Prop) sd w t os (l : list (out pobs O)) : epoch_messages sd w t os l -> Forall (output_ok Q) l -> Forall Q os.
Proof.
  intros (parts & <- & _ & _ & _ & M) F. apply Forall_concat. apply Forall_forall. intros p I. apply In_nth_error in I. destruct I as (i & I).
  assert (N : nth_error l i = Some (OObs sd w t (16 * len parts + Z.of_nat i) p)) by (apply M; exists p; auto).
  apply nth_error_In in N. rewrite Forall_forall in F. specialize (F _ N). apply F.
Qed.
Lemma seen_ok {O} (Q : pobs -> Prop) (l : list (out pobs O)) : Forall (output_ok Q) l -> Forall (output_ok Q) (seen l).
Proof. intros F. apply Forall_forall. intros x I. apply filter_In in I. rewrite Forall_forall in F. apply F. exact (proj1 I). Qed.
Lemma paired_week refs fs : Forall (fun ref => wn ref <= 32767) refs -> forall ref (p : list Z), In (Some ref, p) (combine (List.map Some refs) fs) -> wn ref <= 32767.
Proof. intros F ref p I. apply in_combine_l in I. apply in_map_iff in I. destruct I as (x & E & I). injection E as ->. rewrite Forall_forall in F. exact (F _ I). Qed.
Lemma in_step_week utc leap g x refs : Forall (in_step utc leap g x) refs -> Forall (fun ref => wn ref <= 32767) refs.
Proof. intros F. eapply Forall_impl; [|exact F]. intros r ((W & _) & _). lia. Qed.

Section One.
Variables (carrier num_of : code -> Z) (code_of : Z -> code) (masked : RtcmMsm_model.cons -> bool) (utc_offset : gtime -> Z) (consts : Z -> dbl).
Context {A O : Type}.
Variable rest : Z -> list Z -> rstate pobs (list Z * A) -> A * list O.
Variables (tx : list Z) (cfg : ocfg) (leap : Z).
Hypothesis CAR : carriers_ok carrier.
Hypothesis NUM : forall k, code_of (num_of k) = k.
Hypothesis TX : fcn_map_ok tx.
Hypothesis TY : c_type cfg = 4 \/ c_type cfg = 5.
Hypothesis LK : c_leap cfg = Some leap.
Hypothesis LR : -128 <= leap <= 127.
Notation rx_run := (rx_run carrier num_of zero_opts masked utc_offset consts rest).

(** one epoch after any history: what arrives is well-formed *)
Lemma arrived_ok (a : A) hist (s : rstate pobs (list Z * A)) o0 e : fcn_map_ok (fcns s) -> maps_agree tx (fcns s) -> sendable code_of e ->
  (forall ref p, In (Some ref, p) hist -> wn ref <= 32767) -> rx_run hist (rx_init a) = Some (s, o0) -> r_buf s = [] -> oh_tow (e_hdr e) <> 0 \/ gps_time_valid (r_last_gps s) = true ->
  exists fs, out_frames carrier code_of tx cfg e = Ok fs /\ Forall valid_frame fs /\
  forall refs, Forall (in_step utc_offset leap (has_glo code_of (e_obs e)) (epoch_ms e)) refs -> length refs = length fs ->
  exists s' o ord opts, rx_run (combine (List.map Some refs) (List.map payload_of fs)) s = Some (s', o) /\ r_buf s' = [] /\ fcns s' = fcns s /\ gps_time_valid (r_last_gps s') = true /\
    Permutation ord (e_obs e) /\ Forall2 (relayed carrier code_of (c_type cfg) tx (fcns s) masked (e_obs e)) ord opts /\ Forall (obs_ok num_of masked) (RxTx_spec.somes opts) /\
    epoch_messages (sender_of (e_sender e mod 4096)) (oh_wn (e_hdr e)) (oh_tow (e_hdr e)) (RxTx_spec.somes opts) (seen o).
Proof.
  intros MAP AG SE HW HR B X0. destruct (one_epoch carrier num_of code_of masked utc_offset consts rest CAR NUM tx (fcns s) cfg leap TX MAP AG TY LK LR e SE) as (fs & E & V & _ & R).
  exists fs. split; [exact E|]. split; [exact V|]. intros refs F L. destruct (R refs F L s eq_refl B X0) as (s' & o & E' & B' & F' & LA & (ord & opts & PM & FO & EM)).
  exists s', o, ord, opts. split; [exact E'|]. split; [exact B'|]. split; [exact F'|]. split; [destruct LA as (V1 & _ & V2 & _); rewrite V2; exact V1|]. split; [exact PM|]. split; [exact FO|]. split; [|exact EM].
  destruct (run_ok carrier num_of masked zero_opts utc_offset consts rest hist HW (rx_init a) s o0 (init_ok num_of masked a) HR) as [I _].
  destruct (run_ok carrier num_of masked zero_opts utc_offset consts rest _ (paired_week refs _ (in_step_week _ _ _ _ _ F)) s s' o I E') as [_ OK].
  eapply messages_obs; [exact EM|]. apply seen_ok. exact OK.
Qed.
End One.

(** An epoch of observations that MSM can carry without loss comes out with exactly its observations, in another order.  [hist]: what the receiver got before *)
Theorem C86_settled_epoch_unchanged : forall carrier num_of code_of tx masked utc_offset consts (A O : Type) (rest : Z -> list Z -> rstate pobs (list Z * A) -> A * list O) (a : A) hist (s : rstate pobs (list Z * A)) o0 cfg leap e,
  carriers_ok carrier -> (forall k, code_of (num_of k) = k) -> fcn_map_ok tx -> fcn_map_ok (fcns s) -> maps_agree tx (fcns s) ->
  c_type cfg = 4 \/ c_type cfg = 5 -> c_leap cfg = Some leap -> -128 <= leap <= 127 ->
  (forall ref p, In (Some ref, p) hist -> wn ref <= 32767) -> rx_run carrier num_of zero_opts masked utc_offset consts rest hist (rx_init a) = Some (s, o0) -> r_buf s = [] ->
  oh_tow (e_hdr e) <> 0 \/ gps_time_valid (r_last_gps s) = true ->
  sendable code_of e -> Forall (settled carrier num_of code_of (c_type cfg) tx (fcns s) masked (e_obs e)) (e_obs e) ->
  exists fs, out_frames carrier code_of tx cfg e = Ok fs /\ Forall valid_frame fs /\
  forall refs, Forall (in_step utc_offset leap (has_glo code_of (e_obs e)) (epoch_ms e)) refs -> length refs = length fs ->
  exists s' o ord, rx_run carrier num_of zero_opts masked utc_offset consts rest (combine (List.map Some refs) (List.map payload_of fs)) s = Some (s', o) /\ r_buf s' = [] /\
    Permutation ord (e_obs e) /\ epoch_messages (sender_of (e_sender e mod 4096)) (oh_wn (e_hdr e)) (oh_tow (e_hdr e)) ord (seen o).
Proof.
  intros carrier num_of code_of tx masked utc consts A O rest a hist s o0 cfg leap e CAR NUM TX MAP AG TY LK LR HW HR B X0 SE ST.
  destruct (arrived_ok carrier num_of code_of masked utc consts rest tx cfg leap CAR NUM TX TY LK LR a hist s o0 e MAP AG SE HW HR B X0) as (fs & E & V & R).
  exists fs. split; [exact E|]. split; [exact V|]. intros refs F L. destruct (R refs F L) as (s' & o & ord & opts & E' & B' & _ & _ & PM & FO & OK & EM).
  exists s', o, ord. split; [exact E'|]. split; [exact B'|]. split; [exact PM|].
  rewrite (all_same carrier num_of code_of (c_type cfg) tx (fcns s) masked NUM (e_obs e) ST ord opts FO) in EM; [exact EM| |exact OK]. intros x I. exact (Permutation_in _ PM I).
Qed.

(** Two passes in sequence, the second one through a receiver with its own history: what arrives of an epoch of close values is sent again and arrives with exactly the
    same observations, time and sender.  [refs], [refs2]: the receivers' times at each frame *)
Theorem C86_second_pass_unchanged : forall carrier num_of code_of tx masked utc_offset consts (A O : Type) (rest : Z -> list Z -> rstate pobs (list Z * A) -> A * list O) (a a2 : A) hist hist2 (s s2 : rstate pobs (list Z * A)) o0 o02 cfg leap e,
  carriers_ok carrier -> (forall k, code_of (num_of k) = k) -> fcn_map_ok tx -> fcn_map_ok (fcns s) -> maps_agree tx (fcns s) -> fcns s2 = fcns s ->
  c_type cfg = 4 \/ c_type cfg = 5 -> c_leap cfg = Some leap -> -128 <= leap <= 127 ->
  (forall ref p, In (Some ref, p) hist -> wn ref <= 32767) -> rx_run carrier num_of zero_opts masked utc_offset consts rest hist (rx_init a) = Some (s, o0) -> r_buf s = [] ->
  (forall ref p, In (Some ref, p) hist2 -> wn ref <= 32767) -> rx_run carrier num_of zero_opts masked utc_offset consts rest hist2 (rx_init a2) = Some (s2, o02) -> r_buf s2 = [] ->
  oh_tow (e_hdr e) <> 0 \/ gps_time_valid (r_last_gps s) = true /\ gps_time_valid (r_last_gps s2) = true ->
  sendable code_of e -> Forall (close carrier code_of (c_type cfg) tx (fcns s) (e_obs e)) (e_obs e) -> Forall (fun o => o_cn0 o < 254) (e_obs e) ->
  exists fs, out_frames carrier code_of tx cfg e = Ok fs /\ Forall valid_frame fs /\
  forall refs, Forall (in_step utc_offset leap (has_glo code_of (e_obs e)) (epoch_ms e)) refs -> length refs = length fs ->
  exists s' o os1, rx_run carrier num_of zero_opts masked utc_offset consts rest (combine (List.map Some refs) (List.map payload_of fs)) s = Some (s', o) /\
    epoch_messages (sender_of (e_sender e mod 4096)) (oh_wn (e_hdr e)) (oh_tow (e_hdr e)) os1 (seen o) /\
    (os1 <> [] -> let e1 := mkepoch (sender_of (e_sender e mod 4096)) (e_hdr e) os1 in
     exists fs2, out_frames carrier code_of tx cfg e1 = Ok fs2 /\ Forall valid_frame fs2 /\
     forall refs2, Forall (in_step utc_offset leap (has_glo code_of os1) (epoch_ms e)) refs2 -> length refs2 = length fs2 ->
     exists s3 o2 os2, rx_run carrier num_of zero_opts masked utc_offset consts rest (combine (List.map Some refs2) (List.map payload_of fs2)) s2 = Some (s3, o2) /\
       Permutation os2 os1 /\ epoch_messages (sender_of (e_sender e mod 4096)) (oh_wn (e_hdr e)) (oh_tow (e_hdr e)) os2 (seen o2)).
Proof.
  intros carrier num_of code_of tx masked utc consts A O rest a a2 hist hist2 s s2 o0 o02 cfg leap e CAR NUM TX MAP AG FE TY LK LR HW HR B HW2 HR2 B2 X0 SE CL CN.
  destruct (arrived_ok carrier num_of code_of masked utc consts rest tx cfg leap CAR NUM TX TY LK LR a hist s o0 e MAP AG SE HW HR B ltac:(intuition)) as (fs & E & V & R).
  exists fs. split; [exact E|]. split; [exact V|]. intros refs F L. destruct (R refs F L) as (s' & o & ord & opts & E' & B' & _ & _ & PM & FO & OK & EM).
  exists s', o, (RxTx_spec.somes opts). split; [exact E'|]. split; [exact EM|]. intros NE e1.
  assert (SE1 : sendable code_of e1) by (eapply (sendable_after carrier num_of code_of (c_type cfg) tx (fcns s) masked e ord opts e1 SE PM FO OK); [reflexivity|reflexivity|exact NE]).
  assert (ST : Forall (settled carrier num_of code_of (c_type cfg) tx (fcns s2) masked (e_obs e1)) (e_obs e1)) by (rewrite FE; eapply settled_after; eassumption).
  rewrite <- FE in MAP, AG.
  destruct (C86_settled_epoch_unchanged carrier num_of code_of tx masked utc consts A O rest a2 hist2 s2 o02 cfg leap e1 CAR NUM TX MAP AG TY LK LR HW2 HR2 B2 ltac:(cbn [e1 e_hdr]; intuition) SE1 ST) as (fs2 & E2 & V2 & R2).
  exists fs2. split; [exact E2|]. split; [exact V2|]. intros refs2 F2 L2. destruct (R2 refs2 F2 L2) as (s3 & o2 & os2 & E3 & _ & PM2 & EM2).
  exists s3, o2, os2. split; [exact E3|]. split; [exact PM2|]. cbn [e1 e_sender e_hdr] in EM2. rewrite sender_again in EM2 by (apply Z.mod_pos_bound; reflexivity). exact EM2.
Qed.

(** ** A concrete case: what arrives of the epoch of C82 *)
Definition ex_once : list pobs :=
  [mkpobs 1061728394 111588407 107 3217 229 180 9 15 5 0; mkpobs 1061728562 86952019 117 2507 115 160 9 15 5 6; mkpobs 1200006172 126121499 250 (-1752) 127 172 5 11 12 0;
   mkpobs 999999975 106911459 99 (-5354) 104 200 12 15 7 16].
Definition ex_epoch_once : Sbp2Rtcm_model.epoch := mkepoch 62132 (e_hdr ex_epoch) ex_once.
Ltac in_hertz := repeat match goal with |- context [hertz ?a ?b ?c] => let v := eval vm_compute in (hertz a b c) in change (hertz a b c) with v end.
Ltac near := intros o2 I; repeat (destruct I as [<-|I]; [intros [SC SS]; try (vm_compute in SS; discriminate SS); try (intros TF FK); unfold phase_m, rate_m_s, range_m, freq, C_M_S; in_hertz; cbn [o_P o_Li o_Lf o_Di o_Df]; apply Rabs_le; split; lra|]); destruct I.
Ltac one_close := split; [near|split; intros TF0; [split; [intros G; vm_compute; discriminate|split; [intros G T4; discriminate T4|near]]|split; [reflexivity|split; [intros G; vm_compute; discriminate|near]]]].
Lemma ex_close : Forall (close ex_carrier ex_code_of 5 ex_fcns (repeat 255 29) ex_once) ex_once.
Proof. unfold ex_once at 2. repeat (apply Forall_cons; [one_close|]). apply Forall_nil. Qed.
Lemma ex_close0 : Forall (close ex_carrier ex_code_of 5 ex_fcns (repeat 255 29) ex_obs) ex_obs.
Proof. unfold ex_obs at 2. repeat (apply Forall_cons; [one_close|]). apply Forall_nil. Qed.
Lemma ex_settled : Forall (settled ex_carrier ex_num_of ex_code_of 5 ex_fcns (repeat 255 29) (fun _ => false) ex_once) ex_once.
Proof.
  pose proof ex_close as CL. rewrite Forall_forall in *. intros o I. specialize (CL o I).
  assert (X : obs_ok ex_num_of (fun _ => false) o /\ o_cn0 o mod 4 = 0 /\ ~ of_cons ex_code_of cQZS o).
  { clear CL. unfold ex_once in I. repeat (destruct I as [<-|I]; [split; [unfold obs_ok; cbn [o_P o_Li o_Lf o_Di o_Df o_cn0 o_lock o_flags o_sat o_code];
      repeat (split; [first [lia | reflexivity | (intros H; vm_compute in H; discriminate H)]|]); match goal with |- exists k c, ?n = _ /\ _ => exists (ex_code_of n) end; eexists; split; [vm_compute; reflexivity|split; [vm_compute; reflexivity|split; [vm_compute; reflexivity|split; [cbn; lia|discriminate]]]]
      |split; [reflexivity|intros H; vm_compute in H; discriminate H]]|]). destruct I. }
  destruct X as (A & B & C). split; [exact A|]. split; [exact B|]. split; [exact C|]. split; [reflexivity|exact CL].
Qed.
Lemma ex_sendable_once : sendable ex_code_of ex_epoch_once.
Proof.
  split; [unfold WEEK; cbn; lia|]. split; [split; [|split]|split; [|split]].
  - pose proof (proj1 ex_epoch_ok) as P. cbn [ex_epoch e_obs ex_obs] in P. cbn [ex_epoch_once e_obs ex_once]. repeat (apply Forall_cons_iff in P; destruct P as [P1 P]; apply Forall_cons; [exact P1|]; clear P1). apply Forall_nil.
  - exact (proj1 (proj2 ex_epoch_ok)).
  - intros c. destruct c; vm_compute; split; discriminate.
  - change (Forall MsmVal_spec.obs_in_range ex_once). unfold ex_once. repeat (apply Forall_cons; [unfold MsmVal_spec.obs_in_range, flag, byte; cbn; repeat split; lia|]). apply Forall_nil.
  - vm_compute. congruence.
  - apply Exists_cons_hd. intros E. vm_compute in E. discriminate E.
Qed.
(** the hypotheses of C86_settled_epoch_unchanged, for a fresh receiver *)
Example C86_nonvacuous : sendable ex_code_of ex_epoch_once /\ oh_tow (e_hdr ex_epoch_once) <> 0 /\
  Forall (settled ex_carrier ex_num_of ex_code_of 5 ex_fcns (repeat 255 29) (fun _ => false) (e_obs ex_epoch_once)) (e_obs ex_epoch_once) /\
  through 5 [ex_epoch_once] = Some [OObs 62132 2190 345600200 16 ex_once].
Proof. split; [exact ex_sendable_once|]. split; [discriminate|]. split; [exact ex_settled|]. vm_compute. reflexivity. Qed.
(** and of C86_second_pass_unchanged: the epoch of C82, in which one C/N0 is not whole; the first pass changes it and gives the epoch above *)
Example C86_nonvacuous2 : sendable ex_code_of ex_epoch /\ Forall (close ex_carrier ex_code_of 5 ex_fcns (repeat 255 29) (e_obs ex_epoch)) (e_obs ex_epoch) /\
  Forall (fun o => o_cn0 o < 254) (e_obs ex_epoch) /\ e_obs ex_epoch <> ex_once /\ through 5 [ex_epoch] = Some [OObs 62132 2190 345600200 16 ex_once].
Proof.
  split; [exact ex_sendable|]. split; [exact ex_close0|]. split; [cbn [ex_epoch e_obs ex_obs]; repeat (apply Forall_cons; [cbn; lia|]); apply Forall_nil|]. split; [discriminate|]. vm_compute. reflexivity.
Qed.
(** finding: two observations whose order on the air is not the order of the epoch come out swapped: only the set of observations is preserved *)
Theorem C86_order_refuted : through 5 [mkepoch 62132 (e_hdr ex_epoch) (rev ex_once)] = through 5 [ex_epoch_once] /\ rev ex_once <> ex_once.
Proof. split; [vm_compute; reflexivity|discriminate]. Qed.
Print Assumptions C86_settled_epoch_unchanged.
Print Assumptions C86_second_pass_unchanged.
Print Assumptions C86_nonvacuous.
Print Assumptions C86_nonvacuous2.
Print Assumptions C86_order_refuted.
