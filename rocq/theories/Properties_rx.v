(** C81: whole epochs of RTCM observation messages received: from bytes to the SBP observation messages and their physical values. *)
From Verif Require Import Base Bitstring Bits_model Bitstream_model Crc RtcmFraming_model RtcmFraming_spec Properties_framing Time_model RtcmStation_spec RtcmLegacy_model RtcmMsm_model RtcmMsm_spec Signals_model Double_model Sbp2Rtcm_model MsmVal_model MsmVal_spec MsmWire_spec MsmRx_spec Options_model
  ObsBuffer_model ObsBuffer_spec ObsExcl_spec Properties_msmval Properties_msmrx Properties_legrx LegRx_spec Properties_wire Rx_model Rx_spec Rx_proofs.
Local Open Scope Z_scope.

(** the frame carries the payload of the event *)
Definition frames_event (f : list Z) (e : event) : Prop := exists hd tl, f = hd ++ snd e ++ tl /\ len hd = 3 /\ len tl = 3.
Lemma payload_frames f e : frames_event f e -> payload_of f = snd e.
Proof.
  intros (hd & tl & -> & L1 & L2). unfold payload_of, sub. rewrite drop_app_eq by exact L1. apply take_app_eq. rewrite !len_app. lia.
Qed.

(** Complete epochs, received one after another in a byte stream, with garbage without 0xD3 between the frames and reads of any sizes up to 3067 bytes, by a freshly
    started converter: no undefined behaviour, and for every epoch exactly one epoch of SBP observation messages: the observations of its messages, each with the physical
    values of its cell (C78) or signal (C80), the time of the epoch and the sender of the station; nothing else is sent about observations *)
Theorem C81_epochs_received_partial : forall carrier num_of op masked utc_offset consts (A O : Type) (rest : Z -> list Z -> rstate pobs (list Z * A) -> A * list O) a eps chunks frames,
  carriers_ok carrier -> opts_ok op ->
  Forall (complete_epoch utc_offset) eps -> spaced None None eps ->
  Forall good_read chunks -> garbage_separated frames (concat chunks) -> Forall2 frames_event frames (flat_map snd eps) ->
  exists s' o gs, rx_bytes carrier num_of op masked utc_offset consts rest chunks (map fst (flat_map snd eps)) (rx_init a) = Some (s', o) /\
    seen o = concat gs /\ epochs_seen carrier num_of op masked utc_offset (repeat 255 29) eps gs.
Proof.
  intros carrier num_of op masked utc consts A O rest a eps chunks frames CAR OPS CE SP GR GS FE.
  destruct (C03_every_frame_delivered chunks frames GR GS) as (r & E). unfold rx_bytes. rewrite E.
  assert (EV : combine (map fst (flat_map snd eps)) (map payload_of frames) = flat_map snd eps).
  { clear - FE. induction FE as [|f [tin p] fs es P F IH]; [reflexivity|]. cbn [map combine fst]. rewrite IH, (payload_frames _ _ P). reflexivity. }
  rewrite EV. destruct (run_epochs carrier num_of op masked utc consts rest CAR OPS eps CE None None (rx_init a) SP) as (s' & o & gs & R & S & ES).
  - split; [|split; [|split]]; intros H; try discriminate H. contradiction.
  - split; [reflexivity|]. repeat (constructor; [right; reflexivity|]). constructor.
  - reflexivity.
  - exists s', o, gs. split; [exact R|]. split; [exact S|exact ES].
Qed.
(** One epoch, for any state of the receiver in which no epoch is unfinished (any channel map learnt before, any earlier epochs) *)
Theorem C81_one_msm_epoch_partial : forall carrier num_of op masked utc_offset consts (A O : Type) (rest : Z -> list Z -> rstate pobs (list Z * A) -> A * list O) x stn es n s,
  carriers_ok carrier -> opts_ok op -> msm_epoch utc_offset x stn false es n -> n <= 210 -> fcn_map_ok (fcns s) -> r_buf s = [] ->
  x mod WEEK <> 0 \/ gps_time_valid (r_last_gps s) = true ->
  exists s' o os, rx_run carrier num_of op masked utc_offset consts rest es s = Some (s', o) /\ epoch_obs carrier num_of op masked utc_offset x stn (fcns s) es os /\
    epoch_messages (sender_of stn) (x / WEEK) (x mod WEEK) os (seen o) /\ r_buf s' = [] /\ fcns s' = fold_left learn es (fcns s).
Proof.
  intros carrier num_of op masked utc consts A O rest x stn es n s CAR OPS ME LN FM BU X0.
  destruct (run_epoch carrier num_of op masked utc consts rest CAR OPS x stn false es n ME s X0 FM) as (s' & o & os & E & EO & M & B & F & _); [left; auto|rewrite BU; cbn; lia|].
  exists s', o, os. rewrite BU in M. auto.
Qed.
(** Messages of other kinds change nothing about observations, except that a 1020 sets the channel of its satellite *)
Theorem C81_quiet_messages : forall carrier num_of op masked utc_offset consts (A O : Type) (rest : Z -> list Z -> rstate pobs (list Z * A) -> A * list O) e s,
  quiet utc_offset e ->
  exists s' o, rx_step carrier num_of op masked utc_offset consts rest (fst e) (snd e) s = Some (s', o) /\ seen o = [] /\ r_buf s' = r_buf s /\
    fcns s' = learn (fcns s) e.
Proof.
  intros carrier num_of op masked utc consts A O rest e s Q. destruct (step_quiet carrier num_of op masked utc consts rest e s Q) as (s' & o & E & U & S & F). exists s', o. destruct U as (U & _). auto.
Qed.

(** ** An example: ephemeris of slot 7 (channel +1), then an MSM6 of GLONASS, an MSM7 of GPS; 10 s later a legacy epoch 1004 + 1012 *)
Definition ex_x : Z := 2190 * WEEK + 248418123.
Definition ex_ref (x : Z) : gtime := mkt 2190 (x mod WEEK - 18000).
Definition ex_utc (t : gtime) : Z := 18.
Definition eph20 : list Z := packed (fields_bits [(12, 1020); (6, 7); (5, 8); (337, 0)]).
Definition glo6 : mhdr := mkmhdr 1086 345 259200123 1 3 17 1 2 0 5 (wbits 64 [6]) (wbits 32 [1]) [true].
Definition gps7 : mhdr := mkmhdr 1077 345 248418123 0 3 17 1 2 0 5 (wbits 64 [6]) (wbits 32 [1]) [true].
Definition cell1 : wcols := contents 70 0 5 300 100 100 100 700 5.
Definition h04 : hdr := mkhdr 345 248428123 1 0 2.
Definition h12 : hdr := mkhdr 345 10123 0 0 2.
Definition at_t (x : Z) (p : list Z) : event := (Some (ex_ref x), p).
Definition ex_msm_events : list event := [at_t ex_x eph20; at_t ex_x (payload 6 glo6 cell1); at_t ex_x (payload 7 gps7 cell1)].
Definition ex_leg_events : list event := [at_t (ex_x + 10000) (leg_payload RtcmLegacy_model.GPS true h04 gps_sats); at_t (ex_x + 10000) (leg_payload RtcmLegacy_model.GLO true h12 glo_sats)].
Definition ex_epochs : list epoch := [(false, ex_x, 345, ex_msm_events); (true, ex_x + 10000, 345, ex_leg_events)].
Definition ex_rest : Z -> list Z -> rstate pobs (list Z * unit) -> unit * list unit := fun _ _ _ => (tt, []).
Definition frame (p : list Z) : list Z := let m := 0xD3 :: len p / 256 :: len p mod 256 :: p in m ++ [crc24q m / 65536; crc24q m / 256 mod 256; crc24q m mod 256].
Ltac nums := unfold instant_of_week, instant_of_day; repeat match goal with |- _ /\ _ => split end; (reflexivity || (vm_compute; congruence) || (vm_compute; reflexivity)).
Ltac ordin := unfold ordinary; cbn [w_int w_info w_rate w_cnr cell1 contents]; split; [repeat (constructor; [vm_compute; congruence|]); constructor|]; split; [intros _; repeat (constructor; [right; vm_compute; congruence|]); constructor|];
  split; intros; repeat (constructor; [vm_compute; congruence|]); constructor.
Lemma bytes_dec l : forallb (fun x => (0 <=? x) && (x <? 256)) l = true -> bytes l.
Proof. intros H. rewrite forallb_forall in H. apply Forall_forall. intros x I. specialize (H x I). unfold byte. lia. Qed.
Lemma ex_good x : 2 < 2190 < 32765 -> 0 <= x mod WEEK - 18000 < 604800000 -> good_time ex_utc (ex_ref x).
Proof. intros A B. unfold good_time, ex_ref, ex_utc. cbn [wn tow]. lia. Qed.
Example C81_nonvacuous : Forall (complete_epoch ex_utc) ex_epochs /\ spaced None None ex_epochs /\ carriers_ok ex_carrier /\ opts_ok ex_opts /\
  Forall valid_frame (map (fun e => frame (snd e)) (flat_map snd ex_epochs)).
Proof.
  split; [|split; [|split; [exact ex_carriers|split; [exact (proj1 ex_opts_ok)|]]]].
  - constructor; [|constructor; [|constructor]].
    + exists (1 + 1). split; [lia|]. apply me_quiet.
      { split; [apply bytes_dec; vm_compute; reflexivity|]. split; [intros ref E; injection E as <-; apply ex_good; vm_compute; split; congruence|].
        right. replace (number_of (snd (at_t ex_x eph20))) with 1020 by (vm_compute; reflexivity). split; [cbn; lia|lia]. }
      change 1 with (set_count (cell_mask glo6)) at 1. eapply (me_more _ _ _ _ _ 6 glo6 cell1).
      { exists (ex_ref ex_x), (payload 6 glo6 cell1). split; [reflexivity|]. split; [apply ex_good; vm_compute; split; congruence|]. split; [apply bytes_dec; vm_compute; reflexivity|].
        split; [lia|]. split; [hdr_cols; rest|]. split; [ordin|]. split; [reflexivity|]. split; [reflexivity|]. change (to_constellation (mh_num glo6)) with cGLO. cbv iota. split; [nums|vm_compute; congruence]. }
      change 1 with (set_count (cell_mask gps7)). apply (me_last _ _ _ _ _ 7 gps7 cell1).
      exists (ex_ref ex_x), (payload 7 gps7 cell1). split; [reflexivity|]. split; [apply ex_good; vm_compute; split; congruence|]. split; [apply bytes_dec; vm_compute; reflexivity|].
      split; [lia|]. split; [hdr_cols; rest|]. split; [ordin|]. split; [reflexivity|]. split; [reflexivity|]. change (to_constellation (mh_num gps7)) with cGPS. cbv iota. nums.
    + cbn [complete_epoch]. unfold ex_leg_events. eapply (le_more _ _ _ _ RtcmLegacy_model.GPS true h04 gps_sats); [reflexivity| |eapply (le_last _ _ _ _ RtcmLegacy_model.GLO true h12 glo_sats); [reflexivity|]].
      * exists (ex_ref (ex_x + 10000)). eexists. split; [reflexivity|]. split; [apply ex_good; vm_compute; split; congruence|]. split; [apply bytes_dec; vm_compute; reflexivity|].
        split; [leg_carries|]. split; [repeat (constructor; [split; [cbn; congruence|intros _; left; intros E; discriminate E]|]); constructor|]. split; [repeat (constructor; [cbn; lia|]); constructor|].
        split; [reflexivity|]. split; [reflexivity|]. nums.
      * exists (ex_ref (ex_x + 10000)). eexists. split; [reflexivity|]. split; [apply ex_good; vm_compute; split; congruence|]. split; [apply bytes_dec; vm_compute; reflexivity|].
        split; [leg_carries|]. split; [repeat (constructor; [split; [cbn; congruence|intros _; first [left; intros _; cbn; lia|right; left; reflexivity]]|]); constructor|]. split; [repeat (constructor; [cbn; lia|]); constructor|].
        split; [reflexivity|]. split; [reflexivity|]. split; [nums|vm_compute; congruence].
  - cbn [spaced ex_epochs]. split; [intros _; vm_compute; congruence|]. split; [intros y E; injection E as <-; lia|]. split; [intros y E; injection E as <-; lia|exact I].
  - assert (V : forall p, (forallb (fun x => (0 <=? x) && (x <? 256)) (frame p) && (0 <? len p) && (len p <? 1024) && (crc24q (0xD3 :: len p / 256 :: len p mod 256 :: p) <? 2 ^ 24) && (0 <=? crc24q (0xD3 :: len p / 256 :: len p mod 256 :: p))) = true -> valid_frame (frame p)).
    { intros p H. do 4 (apply andb_true_iff in H; destruct H as [H ?]). unfold frame in *. set (m := 0xD3 :: len p / 256 :: len p mod 256 :: p) in *. exists (len p / 256), (len p mod 256), p, (crc24q m / 65536), (crc24q m / 256 mod 256), (crc24q m mod 256).
      split; [reflexivity|]. split; [apply bytes_dec; exact H|]. split; [rewrite Z.mod_small; lia|]. split; [lia|]. fold m. set (c := crc24q m) in *. clearbody c. lia. }
    repeat (constructor; [apply V; vm_compute; reflexivity|]). constructor.
Qed.
(** what comes out: the two epochs, with 2 and 5 observations; the phase of the GLONASS MSM6 cell uses the channel the ephemeris gave *)
Definition run_outputs (es : list event) : option (list (out pobs unit)) :=
  option_map snd (rx_run ex_carrier ex_num_of ex_opts (fun _ => false) ex_utc (fun _ => d0) ex_rest es (rx_init tt)).
Example C81_result : run_outputs (flat_map snd ex_epochs) = Some
  [OObs 61913 2190 248418123 16 [mkpobs 1049346897 112187203 22 0 0 175 3 7 7 16; mkpobs 1049346797 110287092 142 (-1577) 125 175 3 15 7 0];
   OObs 61913 2190 248428123 16 [mkpobs 1085796059 114117968 115 0 0 180 14 7 5 0; mkpobs 1085795738 88922955 206 0 0 160 15 7 5 8; mkpobs 1798755748 189050505 14 0 0 140 10 7 133 12;
     mkpobs 1061619431 113301145 78 0 0 200 11 7 3 16; mkpobs 1061619358 88121452 222 0 0 150 15 7 3 17]].
Proof. vm_compute. reflexivity. Qed.

(** ** Where the property fails *)
(** (a) the first epoch is an MSM epoch exactly at the start of a week: its observations are dropped, and an empty epoch of sender 0, week 0, time 0 is sent instead *)
Definition gps_week_start : mhdr := mkmhdr 1077 345 0 0 3 17 1 2 0 5 (wbits 64 [6]) (wbits 32 [1]) [true].
Definition week_start_event : event := (Some (mkt 2190 5000), payload 7 gps_week_start cell1).
Theorem C81_week_start_refuted : msm_epoch ex_utc (2190 * WEEK) 345 false [week_start_event] 1 /\ run_outputs [week_start_event] = Some [OObs 0 0 0 16 []].
Proof.
  split; [|vm_compute; reflexivity]. change 1 with (set_count (cell_mask gps_week_start)). apply (me_last _ _ _ _ _ 7 gps_week_start cell1).
  eexists. eexists. split; [reflexivity|]. split; [unfold good_time, ex_utc; cbn [wn tow]; lia|]. split; [apply bytes_dec; vm_compute; reflexivity|].
  split; [lia|]. split; [hdr_cols; rest|]. split; [ordin|]. split; [reflexivity|]. split; [reflexivity|]. change (to_constellation (mh_num gps_week_start)) with cGPS. cbv iota. nums.
Qed.
(** (b) a message whose observations are not converted (here QZSS, 1117), alone in its epoch: an empty epoch of sender 0, week 0, time 0 is sent *)
Definition qzss7 : mhdr := mkmhdr 1117 345 248418123 0 3 17 1 2 0 5 (wbits 64 [6]) (wbits 32 [1]) [true].
Theorem C81_unconverted_alone_refuted : closing ex_utc (at_t ex_x (payload 7 qzss7 cell1)) /\ run_outputs [at_t ex_x (payload 7 qzss7 cell1)] = Some [OObs 0 0 0 16 []].
Proof.
  split; [|vm_compute; reflexivity]. eexists. eexists. split; [reflexivity|]. split; [apply ex_good; vm_compute; split; congruence|]. split; [apply bytes_dec; vm_compute; reflexivity|].
  split; [vm_compute; congruence|]. replace (number_of (payload 7 qzss7 cell1)) with 1117 by (vm_compute; reflexivity). split; [cbn; lia|]. split; [lia|]. vm_compute. reflexivity.
Qed.
Print Assumptions C81_epochs_received_partial.
Print Assumptions C81_one_msm_epoch_partial.
Print Assumptions C81_quiet_messages.
Print Assumptions C81_nonvacuous.
Print Assumptions C81_result.
Print Assumptions C81_week_start_refuted.
Print Assumptions C81_unconverted_alone_refuted.
