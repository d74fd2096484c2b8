(** C66, C67: base position, antenna description and GLONASS biases, SBP to RTCM and RTCM to SBP. *)
From Coq Require Import Reals Lra String Ascii.
From Flocq Require Import Core IEEE754.Binary IEEE754.Bits.
From Verif Require Import Base Bitstring Bits_model Bits_proofs Bitstream_model Bitstream_proofs Double_model Double_proofs
  RtcmFraming_model RtcmFraming_spec RtcmFraming_proofs RtcmFrameOut_model RtcmFrameOut_proofs RtcmStation_model RtcmStation_spec RtcmStation_proofs RtcmMessage_proofs
  ObsBuffer_model Time_model StaConv_model StaConv_spec StaConv_proofs StaConv_wire_proofs.
Import ListNotations.
Open Scope Z_scope.
Open Scope list_scope.

(** ** the state of the converter after any history *)
Definition good_ost (es : list oev) (st : ost) : Prop :=
  o_known st = configured es /\ o_height st = height_after es /\ is_finite 53 1024 (o_height st) = true /\ (0 <= metres (o_height st) <= height_max)%R /\
  o_ant st = take 31 (fst (descriptors_after es)) /\ o_rcv st = take 31 (snd (descriptors_after es)) /\ cstring (o_ant st) /\ cstring (o_rcv st).
Lemma cstr_id s : cstring s -> cstr s = s.
Proof. induction 1 as [|c s H _ IH]; [reflexivity|]. cbn [cstr]. destruct (Z.eqb_spec c 0); [lia|]. now rewrite IH. Qed.
Lemma text_of s : cstring s -> len s <= 31 -> text 32 s.
Proof. intros H L. split; [eapply Forall_impl; [|exact H]; unfold byte; lia|lia]. Qed.
Lemma snoc {A} (f : A -> oev -> A) es e a : fold_left f (es ++ [e]) a = f (fold_left f es a) e.
Proof. rewrite fold_left_app. reflexivity. Qed.

Section Out.
Variable g : msg_1005.
(** one base position in a good state *)
Lemma base_pos_step0 es st sender x y z nx ny nz : good_ost es st -> q_arp x = Ok nx -> q_arp y = Ok ny -> q_arp z = Ok nz -> sbits 38 nx -> sbits 38 ny -> sbits 38 nz ->
  exists f6 rest nh, let m6 := mk1006 (mk1005 (stn12 sender) 0 1 1 1 0 nx 1 ny 0 nz) nh in base_pos_cb sender x y z st = Ok (mkost sender (o_known st) (o_height st) (o_ant st) (o_rcv st), f6 :: rest) /\ Forall valid_frame (f6 :: rest) /\
    run_dec (decode_1006 g) (payload_of f6) = Ok m6 /\ bytes (payload_of f6) /\ wf_1006 m6 /\ tenths_mm nh (height_after es) /\
    if configured es
    then exists f8 f33 m8 m33, rest = [f8; f33] /\ run_dec decode_1008 (payload_of f8) = Ok m8 /\ says_1008 m8 sender (fst (descriptors_after es)) /\
           run_dec decode_1033 (payload_of f33) = Ok m33 /\ says_1033 m33 sender (fst (descriptors_after es)) (snd (descriptors_after es))
    else rest = [].
Proof.
  intros (K & H & FH & BH & A & R & TA & TR) QX QY QZ SX SY SZ.
  destruct (q_height_ok (o_height st) FH BH) as (nh & QH & SH & NH).
  set (m6 := mk1006 (mk1005 (stn12 sender) 0 1 1 1 0 nx 1 ny 0 nz) nh).
  pose proof (stn_range sender) as SS.
  assert (W6 : wf_1006 m6).
  { split; [|exact SH]. unfold wf_1005, m6, ubits. cbn [m6_1005 stn_id itrf gps_ind glo_ind gal_ind ref_stn_ind arp_x osc_ind arp_y quart_cycle_ind arp_z].
    unfold ubits in SS. change (2 ^ 6) with 64. change (2 ^ 1) with 2. change (2 ^ 2) with 4. repeat split; try lia; first [apply SX|apply SY|apply SZ]. }
  destruct (framed _ _ _ _ (rt_1006 g m6 W6) ltac:(lia)) as (f6 & E6 & V6 & D6 & B6 & _).
  rewrite H in NH.
  assert (LA : len (o_ant st) <= 31) by (rewrite A, len_take; lia). assert (LR : len (o_rcv st) <= 31) by (rewrite R, len_take; lia).
  set (m33 := mk1033 (stn12 sender) (o_ant st) 0 [] (o_rcv st) [] []). set (m8 := mk1008 (mk1007 (stn12 sender) (o_ant st) 0) []).
  assert (T0 : text 32 []) by (split; [constructor|cbn; lia]).
  assert (W33 : wf_1033 m33) by (unfold wf_1033, m33; cbn [m33_stn_id m33_ant_descriptor m33_ant_setup_id m33_ant_serial_num rcv_descriptor rcv_fw_version rcv_serial_num];
    pose proof (text_of _ TA LA); pose proof (text_of _ TR LR); unfold ubits at 2; change (2 ^ 8) with 256; repeat split; try assumption; try lia; apply T0 || apply H0 || apply H1 || apply SS).
  assert (W8 : wf_1008 m8) by (split; [unfold wf_1007, m8; cbn [m8_1007 m7_stn_id ant_descriptor ant_setup_id]; pose proof (text_of _ TA LA); unfold ubits at 2; change (2 ^ 8) with 256; repeat split; try lia; apply H0 || apply SS|exact T0]).
  pose proof (len_nonneg (o_ant st)). pose proof (len_nonneg (o_rcv st)).
  destruct (framed _ _ _ _ (rt_1008 m8 W8) ltac:(cbn [m8 m8_1007 ant_descriptor ant_serial_num]; change (len []) with 0; lia)) as (f8 & E8 & V8 & D8 & _).
  destruct (framed _ _ _ _ (rt_1033 m33 W33) ltac:(cbn [m33 m33_ant_descriptor m33_ant_serial_num rcv_descriptor rcv_fw_version rcv_serial_num]; change (len []) with 0; lia)) as (f33 & E33 & V33 & D33 & _).
  unfold base_pos_cb. cbn [o_known o_height o_ant o_rcv o_sender]. unfold sbp_to_1006, quantise_1006. cbn [o_sender o_height d_stn d_x d_y d_z d_h].
  rewrite QX, QY, QZ, QH. cbn [bind]. rewrite stn_and. fold m6. rewrite E6. cbn [bind]. rewrite <- K.
  unfold generate_1033, m1033_to_1008. cbn [o_sender o_ant o_rcv m33_stn_id m33_ant_descriptor m33_ant_setup_id]. rewrite stn_and. fold m33 m8.
  destruct (o_known st).
  - rewrite E8. cbn [bind]. rewrite E33. cbn [bind]. exists f6, [f8; f33], nh. cbv zeta. fold m6. split; [reflexivity|]. split; [repeat (apply Forall_cons; [assumption|]); apply Forall_nil|].
    split; [exact D6|]. split; [exact B6|]. split; [exact W6|]. split; [exact NH|]. exists f8, f33, m8, m33. unfold says_1008, says_1033. rewrite <- A, <- R. repeat (split; [first [exact D8|exact D33|reflexivity]|]). reflexivity.
  - exists f6, [], nh. cbv zeta. fold m6. split; [reflexivity|]. split; [apply Forall_cons; [exact V6|apply Forall_nil]|]. split; [exact D6|]. split; [exact B6|]. split; [exact W6|]. split; [exact NH|]. reflexivity.
Qed.
Lemma base_pos_step es st sender x y z : good_ost es st -> coord_ok x -> coord_ok y -> coord_ok z ->
  exists f6 rest m6, base_pos_cb sender x y z st = Ok (mkost sender (o_known st) (o_height st) (o_ant st) (o_rcv st), f6 :: rest) /\ Forall valid_frame (f6 :: rest) /\
    run_dec (decode_1006 g) (payload_of f6) = Ok m6 /\ bytes (payload_of f6) /\ wf_1006 m6 /\ says_1006 m6 sender x y z (height_after es) /\
    if configured es
    then exists f8 f33 m8 m33, rest = [f8; f33] /\ run_dec decode_1008 (payload_of f8) = Ok m8 /\ says_1008 m8 sender (fst (descriptors_after es)) /\
           run_dec decode_1033 (payload_of f33) = Ok m33 /\ says_1033 m33 sender (fst (descriptors_after es)) (snd (descriptors_after es))
    else rest = [].
Proof.
  intros G CX CY CZ.
  destruct (q_arp_ok x CX) as (nx & QX & SX & NX). destruct (q_arp_ok y CY) as (ny & QY & SY & NY). destruct (q_arp_ok z CZ) as (nz & QZ & SZ & NZ).
  destruct (base_pos_step0 es st sender x y z nx ny nz G QX QY QZ SX SY SZ) as (f6 & rest & nh & E & V & D & B & W & NH & R).
  exists f6, rest. eexists. split; [exact E|]. split; [exact V|]. split; [exact D|]. split; [exact B|]. split; [exact W|]. split; [|exact R]. unfold says_1006; cbn; tauto.
Qed.
(** one bias message *)
Lemma bias_step sender mask a b c d st : s16 a -> s16 b -> s16 c -> s16 d ->
  exists f, glo_biases_cb sender mask a b c d st = Ok (mkost sender (o_known st) (o_height st) (o_ant st) (o_rcv st), [f]) /\ valid_frame f /\ bytes (payload_of f) /\
    run_dec decode_1230 (payload_of f) = Ok (mk1230 (stn12 sender) 0 (mask mod 16) (announced mask 3 a) (announced mask 2 b) (announced mask 1 c) (announced mask 0 d)).
Proof.
  intros SA SB SC SD. unfold glo_biases_cb. rewrite !bias_out by assumption. cbn [bind]. rewrite stn_and.
  assert (BO : forall bit v, s16 v -> bias_ok mask bit (announced mask bit v)).
  { intros bit v S. unfold bias_ok, announced, sbits, s16 in *. change (2 ^ (16 - 1)) with 32768. destruct (Z.testbit mask bit); split; intros; try lia; discriminate. }
  destruct (framed _ _ _ _ (rt_1230_mask (stn12 sender) mask _ _ _ _ (stn_range sender) (BO 3 a SA) (BO 2 b SB) (BO 1 c SC) (BO 0 d SD))) as (f & E & V & D & B & _).
  { pose proof (popcount4_range mask). lia. }
  exists f. rewrite E. cbn [bind]. split; [reflexivity|]. split; [exact V|]. split; [exact B|exact D].
Qed.
Lemma good_other es st e s : good_ost es st -> (forall h, e <> SetHeight h) -> (forall a r, e <> SetDescriptors a r) ->
  good_ost (es ++ [e]) (mkost s (o_known st) (o_height st) (o_ant st) (o_rcv st)).
Proof.
  intros G N1 N2. unfold good_ost, configured, height_after, descriptors_after in *. cbn [o_known o_height o_ant o_rcv]. rewrite existsb_app, !snoc. cbn [existsb].
  destruct e; try (rewrite !orb_false_r; exact G); [destruct (N1 h eq_refl)|destruct (N2 ant rcv eq_refl)].
Qed.
Lemma good_step es st e : good_ost es st -> ev_ok e -> exists st' fs, ostep st e = Ok (st', fs) /\ good_ost (es ++ [e]) st' /\ Forall valid_frame fs.
Proof.
  intros G. destruct e as [h|a r|s x y z|s m a b c d|s]; cbn [ev_ok ostep].
  - intros F. exists (snd (set_ant_height h st)), []. split; [reflexivity|]. split; [|constructor]. rewrite set_height_spec by exact F.
    destruct G as (K & H & FH & BH & A & R & TA & TR). unfold good_ost, configured, height_after, descriptors_after in *. rewrite existsb_app, !snoc. cbn [existsb].
    destruct (height_ok h) eqn:HO; cbn [snd o_known o_height o_ant o_rcv].
    + rewrite orb_true_r. split; [reflexivity|]. split; [reflexivity|]. split; [exact F|]. split; [|tauto]. unfold height_ok in HO. destruct (Rle_dec 0 (metres h)); [|discriminate]. destruct (Rle_dec (metres h) height_max); [|discriminate]. split; assumption.
    + rewrite !orb_false_r. tauto.
  - intros [CA CR]. exists (set_descriptors a r st), []. split; [reflexivity|]. split; [|constructor].
    destruct G as (K & H & FH & BH & A & R & TA & TR). unfold good_ost, configured, height_after, descriptors_after, set_descriptors in *. rewrite existsb_app, !snoc. cbn [existsb o_known o_height o_ant o_rcv fst snd].
    rewrite !orb_true_r, !cstr_id by assumption. split; [reflexivity|]. split; [exact H|]. split; [exact FH|]. split; [exact BH|]. split; [reflexivity|]. split; [reflexivity|]. split; apply Forall_take; assumption.
  - intros (U & CX & CY & CZ). destruct (base_pos_step es st s x y z G CX CY CZ) as (f6 & rest & m6 & E & V & _). do 2 eexists. split; [exact E|]. split; [|exact V]. apply good_other; [exact G|discriminate|discriminate].
  - intros (U & M & SA & SB & SC & SD). destruct (bias_step s m a b c d st SA SB SC SD) as (f & E & V & _). do 2 eexists. split; [exact E|]. split; [|apply Forall_cons; [exact V|apply Forall_nil]]. apply good_other; [exact G|discriminate|discriminate].
  - intros U. do 2 eexists. split; [reflexivity|]. split; [|constructor]. apply good_other; [exact G|discriminate|discriminate].
Qed.
Lemma zero_height : (0 <= metres (dofZ 0) <= height_max)%R.
Proof. destruct (dofZ_exact 0 ltac:(lia)) as [F V]. unfold metres. change (B2R 53 1024 (dofZ 0)) with (dR (dofZ 0)). rewrite V. pose proof height_max_near as H. apply Rabs_le_inv in H. lra. Qed.
Lemma good_run s0 es : Forall ev_ok es -> exists st fs, orun (ost0 s0) es = Ok (st, fs) /\ good_ost es st /\ Forall valid_frame fs.
Proof.
  intros H.
  assert (G : forall es2 es1 st, good_ost es1 st -> Forall ev_ok es2 -> exists st' fs, orun st es2 = Ok (st', fs) /\ good_ost (es1 ++ es2) st' /\ Forall valid_frame fs).
  { induction es2 as [|e es2 IH]; intros es1 st Gs Hs.
    - do 2 eexists. split; [reflexivity|]. rewrite app_nil_r. split; [exact Gs|constructor].
    - inversion Hs as [|? ? He Hs']; subst. destruct (good_step es1 st e Gs He) as (st1 & f1 & E1 & G1 & V1). destruct (IH (es1 ++ [e]) st1 G1 Hs') as (st2 & f2 & E2 & G2 & V2).
      cbn [orun]. rewrite E1. cbn [bind]. rewrite E2. cbn [bind]. do 2 eexists. split; [reflexivity|]. rewrite <- app_assoc in G2. split; [exact G2|]. apply Forall_app. split; assumption. }
  apply (G es [] (ost0 s0)); [|exact H]. unfold good_ost, ost0. cbn [o_known o_height o_ant o_rcv]. split; [reflexivity|]. split; [reflexivity|]. split; [reflexivity|]. split; [exact zero_height|].
  split; [reflexivity|]. split; [reflexivity|]. split; constructor.
Qed.
Lemma rx_1006 now last f m : bytes (payload_of f) -> run_dec (decode_1006 g) (payload_of f) = Ok m -> sta_rx g now last (payload_of f) = Ok (last, [base_pos_of (m6_1005 m)]).
Proof.
  intros B E. destruct (first_field _ 1006 _ _ B E) as [L T]. unfold sta_rx. destruct (Z.ltb_spec (len (payload_of f)) 2); [lia|]. rewrite T. cbn [Z.eqb Pos.eqb]. rewrite E. reflexivity.
Qed.
Lemma half_tenth n x : sbits 38 n -> tenths_mm n x -> within_half_tenth (arp_m n) x.
Proof.
  intros S T. destruct (arp_m_ok n S) as [F V]. split; [exact F|]. unfold tenths_mm in T. apply Rabs_le_inv in T. apply Rabs_le_inv in V. apply Rabs_le. lra.
Qed.

(** ** C66 *)
(** Whatever was configured and sent before (with antenna heights that are not NaN and coordinates in range), an SBP base position is converted
    without undefined behaviour into valid RTCM frames which any receiver delivers however the bytes are cut into reads: a 1006 message with the
    position to 0.05 mm and the configured antenna height, and, if an antenna was configured, a 1008 and a 1033 with the configured descriptors.
    Converted back, the position is within 0.0501 mm of the original. *)
Theorem C66_base_position_out s0 es sender x y z :
  Forall ev_ok es -> coord_ok x -> coord_ok y -> coord_ok z ->
  exists st out st' f6 rest m6,
    orun (ost0 s0) es = Ok (st, out) /\ ostep st (BasePos sender x y z) = Ok (st', f6 :: rest) /\
    Forall valid_frame (f6 :: rest) /\
    (forall chunks, Forall good_read chunks -> concat chunks = concat (f6 :: rest) -> exists r, run chunks = Some (r, f6 :: rest)) /\
    run_dec (decode_1006 g) (payload_of f6) = Ok m6 /\ says_1006 m6 sender x y z (height_after es) /\
    (if configured es
     then exists f8 f33 m8 m33, rest = [f8; f33] /\ run_dec decode_1008 (payload_of f8) = Ok m8 /\ says_1008 m8 sender (fst (descriptors_after es)) /\
            run_dec decode_1033 (payload_of f33) = Ok m33 /\ says_1033 m33 sender (fst (descriptors_after es)) (snd (descriptors_after es))
     else rest = []) /\
    exists x' y' z', (forall now last, sta_rx g now last (payload_of f6) = Ok (last, [SBasePos (back16 (stn12 sender)) x' y' z'])) /\
      within_half_tenth x' x /\ within_half_tenth y' y /\ within_half_tenth z' z.
Proof.
  intros H CX CY CZ. destruct (good_run s0 es H) as (st & out & E & G & _). destruct (base_pos_step es st sender x y z G CX CY CZ) as (f6 & rest & m6 & E6 & V & D & B & W & S & REST).
  exists st, out. eexists. exists f6, rest, m6. split; [exact E|]. split; [exact E6|]. split; [exact V|]. split; [intros chunks Gd C; apply frames_delivered; assumption|].
  split; [exact D|]. split; [exact S|]. split; [exact REST|]. destruct S as (S1 & _ & _ & _ & _ & _ & _ & _ & NX & NY & NZ & _). destruct W as [(_ & _ & _ & _ & _ & _ & SX & _ & SY & _ & SZ) _].
  exists (arp_m (arp_x (m6_1005 m6))), (arp_m (arp_y (m6_1005 m6))), (arp_m (arp_z (m6_1005 m6))). split.
  - intros now last. rewrite (rx_1006 now last f6 m6 B D). unfold base_pos_of. rewrite S1, sender_back by apply stn_range. reflexivity.
  - split; [|split]; apply half_tenth; assumption.
Qed.

(** The other direction and back: the position of an accepted 1005 message (or 1006 of full length) is delivered to 2 nm, and sending the received
    position out again gives a 1006 with the same coordinates to the last bit. *)
Theorem C66_base_position_in_and_back s0 es p m :
  Forall ev_ok es -> bytes p ->
  run_dec decode_1005 p = Ok m \/ (21 <= len p /\ exists h, run_dec (decode_1006 g) p = Ok (mk1006 m h)) ->
  exists x y z, (forall now last, sta_rx g now last p = Ok (last, [SBasePos (back16 (stn_id m)) x y z])) /\
    is_tenths_mm x (arp_x m) /\ is_tenths_mm y (arp_y m) /\ is_tenths_mm z (arp_z m) /\
    exists st out st' f6 rest m6, orun (ost0 s0) es = Ok (st, out) /\ ostep st (BasePos (back16 (stn_id m)) x y z) = Ok (st', f6 :: rest) /\
      run_dec (decode_1006 g) (payload_of f6) = Ok m6 /\
      arp_x (m6_1005 m6) = arp_x m /\ arp_y (m6_1005 m6) = arp_y m /\ arp_z (m6_1005 m6) = arp_z m /\
      stn_id (m6_1005 m6) = stn_id m + (if Z.testbit (stn_id m) 7 then 0 else 128).
Proof.
  intros H B A.
  assert (W : wf_1005 m) by (destruct A as [A|(L & h & A)]; [apply (accepted_1005 p m A)|apply (accepted_1006 g p _ L A)]).
  destruct W as (SS & _ & _ & _ & _ & _ & SX & _ & SY & _ & SZ).
  exists (arp_m (arp_x m)), (arp_m (arp_y m)), (arp_m (arp_z m)). split; [|split; [apply arp_m_ok; exact SX|split; [apply arp_m_ok; exact SY|split; [apply arp_m_ok; exact SZ|]]]].
  { intros now last. destruct A as [A|(L2 & h & A)].
    - destruct (first_field _ 1005 _ _ B A) as [L T]. unfold sta_rx. destruct (Z.ltb_spec (len p) 2); [lia|]. rewrite T. cbn [Z.eqb Pos.eqb]. rewrite A. unfold base_pos_of. rewrite sender_back by exact SS. reflexivity.
    - destruct (first_field _ 1006 _ _ B A) as [L T]. unfold sta_rx. destruct (Z.ltb_spec (len p) 2); [lia|]. rewrite T. cbn [Z.eqb Pos.eqb]. rewrite A. unfold base_pos_of. cbn [m6_1005]. rewrite sender_back by exact SS. reflexivity. }
  destruct (good_run s0 es H) as (st & out & E & G & _).
  destruct (base_pos_step0 es st (back16 (stn_id m)) _ _ _ _ _ _ G (arp_round _ SX) (arp_round _ SY) (arp_round _ SZ) SX SY SZ) as (f6 & rest & nh & E6 & V & D & _).
  exists st, out. eexists. exists f6, rest. eexists. split; [exact E|]. split; [exact E6|]. split; [exact D|]. cbn [m6_1005 arp_x arp_y arp_z stn_id].
  split; [reflexivity|]. split; [reflexivity|]. split; [reflexivity|]. unfold stn12, back16. unfold ubits in SS. change (2 ^ 12) with 4096 in SS.
  assert (X : Z.testbit (stn_id m) 7 = false -> stn_id m < 4096 - 128).
  { intros T. destruct (Z_lt_le_dec (stn_id m) (4096 - 128)) as [|Q]; [lia|]. exfalso. assert (Z.testbit (stn_id m) 7 = true); [|congruence].
    apply Z.testbit_true; [lia|]. assert (stn_id m / 2 ^ 7 = 31) as ->; [|reflexivity]. symmetry. apply (Z.div_unique _ _ _ (stn_id m - 3968)); lia. }
  destruct (Z.testbit (stn_id m) 7); [|specialize (X eq_refl)]; symmetry; apply (Z.mod_unique _ _ 15); lia.
Qed.

(** ** C67 *)
Lemma rx_1230 now last p m : bytes p -> run_dec decode_1230 p = Ok m ->
  sta_rx g (Some now) last p = Ok (now, [if bias_indicator m =? 0 then SGloBiases (back16 (m230_stn_id m)) (fdma_signal_mask m) (l1_ca m) (l1_p m) (l2_ca m) (l2_p m)
                                         else SGloBiases (back16 (m230_stn_id m)) (fdma_signal_mask m) 0 0 0 0]).
Proof.
  intros B E. destruct (first_field _ 1230 _ _ B E) as [L T]. unfold sta_rx. destruct (Z.ltb_spec (len p) 2); [lia|]. rewrite T. cbn [Z.eqb Pos.eqb]. rewrite E.
  pose proof (accepted_1230 p m E) as (SS & _ & _ & (A1 & A2) & (B1 & B2) & (C1 & C2) & (D1 & D2)). rewrite <- sender_back by exact SS. unfold m1230_to_sbp.
  assert (R : forall v, sbits 16 v -> s16 v) by (unfold sbits, s16; change (2 ^ (16 - 1)) with 32768; lia).
  destruct (bias_indicator m =? 0); [|reflexivity]. rewrite !bias_in by auto. reflexivity.
Qed.
(** SBP biases (any 16-bit values, any mask), whatever was sent before: one valid 1230 frame; received, it gives the low four mask bits and exactly
    the announced biases, the others being zero *)
Theorem C67_biases_out_and_back s0 es sender mask a b c d :
  Forall ev_ok es -> s16 a -> s16 b -> s16 c -> s16 d ->
  exists st out st' f, orun (ost0 s0) es = Ok (st, out) /\ ostep st (GloBiases sender mask a b c d) = Ok (st', [f]) /\ valid_frame f /\
    (forall chunks, Forall good_read chunks -> concat chunks = f -> exists r, run chunks = Some (r, [f])) /\
    forall t last, sta_rx g (Some t) last (payload_of f) =
      Ok (t, [SGloBiases (back16 (stn12 sender)) (mask mod 16) (announced mask 3 a) (announced mask 2 b) (announced mask 1 c) (announced mask 0 d)]).
Proof.
  intros H SA SB SC SD. destruct (good_run s0 es H) as (st & out & E & G & _). destruct (bias_step sender mask a b c d st SA SB SC SD) as (f & EF & V & B & D).
  exists st, out. eexists. exists f. split; [exact E|]. split; [exact EF|]. split; [exact V|]. split.
  - intros chunks Gd C. apply frames_delivered; [apply Forall_cons; [exact V|apply Forall_nil]|exact Gd|]. cbn [concat]. rewrite app_nil_r. exact C.
  - intros t last. rewrite (rx_1230 t last _ _ B D). reflexivity.
Qed.
(** an accepted 1230: indicator 0 (not aligned): the biases arrive exactly, and sent out again give the same mask and biases; indicator 1: zero biases *)
Theorem C67_biases_in_and_back s0 es p m :
  Forall ev_ok es -> bytes p -> run_dec decode_1230 p = Ok m ->
  if bias_indicator m =? 0 then
    (forall t last, sta_rx g (Some t) last p = Ok (t, [SGloBiases (back16 (m230_stn_id m)) (fdma_signal_mask m) (l1_ca m) (l1_p m) (l2_ca m) (l2_p m)])) /\
    exists st out st' f, orun (ost0 s0) es = Ok (st, out) /\ ostep st (GloBiases (back16 (m230_stn_id m)) (fdma_signal_mask m) (l1_ca m) (l1_p m) (l2_ca m) (l2_p m)) = Ok (st', [f]) /\
      run_dec decode_1230 (payload_of f) = Ok (mk1230 (stn12 (back16 (m230_stn_id m))) 0 (fdma_signal_mask m) (l1_ca m) (l1_p m) (l2_ca m) (l2_p m))
  else forall t last, sta_rx g (Some t) last p = Ok (t, [SGloBiases (back16 (m230_stn_id m)) (fdma_signal_mask m) 0 0 0 0]).
Proof.
  intros H B E. pose proof (fun t last => rx_1230 t last p m B E) as R. destruct (bias_indicator m =? 0); [|exact R]. split; [exact R|]. clear R.
  pose proof (accepted_1230 p m E) as (SS & _ & MM & (A1 & A2) & (B1 & B2) & (C1 & C2) & (D1 & D2)).
  assert (R : forall v, sbits 16 v -> s16 v) by (unfold sbits, s16; change (2 ^ (16 - 1)) with 32768; lia).
  destruct (good_run s0 es H) as (st & out & E0 & G & _). destruct (bias_step (back16 (m230_stn_id m)) (fdma_signal_mask m) _ _ _ _ st (R _ A1) (R _ B1) (R _ C1) (R _ D1)) as (f & EF & V & Bf & D).
  exists st, out. eexists. exists f. split; [exact E0|]. split; [exact EF|]. rewrite D. f_equal. unfold ubits in MM. rewrite Z.mod_small by exact MM.
  assert (AN : forall bit v, (Z.testbit (fdma_signal_mask m) bit = false -> v = 0) -> announced (fdma_signal_mask m) bit v = v).
  { intros bit v Q. unfold announced. destruct (Z.testbit _ bit); [reflexivity|symmetry; apply Q; reflexivity]. }
  rewrite !AN by assumption. reflexivity.
Qed.

(** *** the table *)
Lemma starts_spec s name : starts_with s name = true <-> exists b, s = name ++ b.
Proof.
  revert s. induction name as [|n name IH]; intros s; cbn [starts_with app].
  - split; [exists s; reflexivity|destruct s; reflexivity].
  - destruct s as [|c s]; [split; [discriminate|intros (b & Q); discriminate]|]. cbn [starts_with]. rewrite andb_true_iff, Z.eqb_eq, IH. split.
    + intros (-> & b & ->). exists b. reflexivity.
    + intros (b & Q). injection Q as -> ->. split; [reflexivity|exists b; reflexivity].
Qed.
Lemma strstr_spec s name : strstr s name = true <-> contains s name.
Proof.
  induction s as [|c s IH]; cbn [strstr].
  - rewrite orb_false_r, starts_spec. split; [intros (b & Q); exists [], b; exact Q|]. intros (a & b & Q). exists b. symmetry in Q. apply app_eq_nil in Q as [-> Q]. symmetry. exact Q.
  - rewrite orb_true_iff, starts_spec, IH. split.
    + intros [(b & Q)|(a & b & Q)]; [exists [], b; exact Q|exists (c :: a), b; rewrite Q; reflexivity].
    + intros (a & b & Q). destruct a as [|c' a]; [left; exists b; exact Q|right; injection Q as _ Q; exists a, b; exact Q].
Qed.
Definition same_row (r : row) (q : spec_row) : Prop :=
  fst (fst r) = fst (fst q) /\ snd (fst r) = snd (fst q) /\
  let '(a, b, c, d) := snd r in exists na nb nc nd, s16_bias a = Ok na /\ s16_bias b = Ok nb /\ s16_bias c = Ok nc /\ s16_bias d = Ok nd /\ snd q = (2 * na, 2 * nb, 2 * nc, 2 * nd).
Lemma rows_match : Forall2 same_row bias_rows spec_rows.
Proof.
  unfold bias_rows, spec_rows, two.
  repeat (apply Forall2_cons; [split; [reflexivity|split; [reflexivity|]]; cbn [snd fst]; do 4 eexists; split; [vm_compute; reflexivity|split; [vm_compute; reflexivity|split; [vm_compute; reflexivity|split; [vm_compute; reflexivity|reflexivity]]]]|]).
  apply Forall2_nil.
Qed.
Lemma named_spec s (r : row) (q : spec_row) : fst (fst r) = fst (fst q) -> existsb (fun n => strstr s (txt n)) (fst (fst r)) = true <-> named s q.
Proof.
  intros Q. unfold named. rewrite existsb_exists, Q. split; intros (n & I & X); exists n; (split; [exact I|]); apply strstr_spec; exact X.
Qed.
Lemma find_spec s rows qs : Forall2 same_row rows qs ->
  match find_row s rows with
  | Some (ns, mask, (a, b, c, d)) => exists na nb nc nd before q after, s16_bias a = Ok na /\ s16_bias b = Ok nb /\ s16_bias c = Ok nc /\ s16_bias d = Ok nd /\
      qs = before ++ q :: after /\ Forall (fun r' => ~ named s r') before /\ named s q /\ q = (fst (fst q), mask, (2 * na, 2 * nb, 2 * nc, 2 * nd))
  | None => Forall (fun r => ~ named s r) qs
  end.
Proof.
  induction 1 as [|r q rows qs M F IH]; cbn [find_row]; [constructor|]. destruct M as (N & K & M). destruct (existsb _ (fst (fst r))) eqn:X.
  - destruct r as [[ns mask] [[[a b] c] d]]. cbn [fst snd] in *. destruct M as (na & nb & nc & nd & E1 & E2 & E3 & E4 & V). exists na, nb, nc, nd, [], q, qs.
    repeat (split; [first [assumption|reflexivity|constructor]|]). split; [apply (named_spec s (ns, mask, (a, b, c, d))); assumption|]. destruct q as [[n2 m2] v2]. cbn [fst snd] in *. subst. reflexivity.
  - assert (NQ : ~ named s q) by (intros Q; apply (named_spec s r) in Q; [congruence|exact N]). destruct (find_row s rows) as [[[ns mask] [[[a b] c] d]]|]; [|constructor; assumption].
    destruct IH as (na & nb & nc & nd & before & q' & after & E1 & E2 & E3 & E4 & -> & FB & NQ' & V). exists na, nb, nc, nd, (q :: before), q', after.
    repeat (split; [assumption|]). split; [reflexivity|]. split; [constructor; assumption|]. split; assumption.
Qed.
Lemma table_spec m : exists mask a b c d, m1033_to_sbp m = Ok (SGloBiases (sender_of (m33_stn_id m)) mask a b c d) /\ guess (cstr (rcv_descriptor m)) mask a b c d.
Proof.
  unfold m1033_to_sbp. pose proof (find_spec (cstr (rcv_descriptor m)) _ _ rows_match) as F. destruct (find_row _ bias_rows) as [[[ns mask] [[[a b] c] d]]|].
  - destruct F as (na & nb & nc & nd & before & q & after & E1 & E2 & E3 & E4 & Q & FB & NQ & V). rewrite E1, E2, E3, E4. cbn [bind]. exists mask, na, nb, nc, nd. split; [reflexivity|].
    left. exists before, q, after. tauto.
  - exists 0, 0, 0, 0, 0. split; [reflexivity|]. right. tauto.
Qed.
Lemma accepted_1033 p m : run_dec decode_1033 p = Ok m -> ubits 12 (m33_stn_id m).
Proof.
  unfold run_dec, decode_1033, expect. destruct (dbind _ _ _) as [m' r| | |] eqn:X; try discriminate. intros E. injection E as ->.
  destruct (dbind_ok _ _ _ _ _ X) as (v & r1 & _ & Y). destruct (v =? 1033); [|discriminate]. clear X.
  destruct (dbind_ok _ _ _ _ _ Y) as (a & r2 & G1 & E1). apply get_u_inv in G1; [|lia].
  do 6 (match goal with E : dbind _ _ _ = DOk m r |- _ => destruct (dbind_ok _ _ _ _ _ E) as (? & ? & _ & ?); clear E end).
  match goal with E : ret _ _ = _ |- _ => unfold ret in E; injection E as <- <- end. exact G1.
Qed.
(** after any history of received payloads: the converter does not fail; the time of the last readable 1230 is what the history says, and a 1033 gives
    the guess for the named receiver exactly if no 1230 was read at a known time in the last 120 s *)
Lemma rx_total now last p : bytes p -> exists last' o, sta_rx g now last p = Ok (last', o).
Proof.
  intros B. unfold sta_rx. destruct (len p <? 2); [do 2 eexists; reflexivity|].
  destruct (frame_type p =? 1005). { pose proof (run_nd _ p nd_1005). destruct (run_dec decode_1005 p); [do 2 eexists; reflexivity..|contradiction]. }
  destruct (frame_type p =? 1006). { pose proof (run_nd _ p (nd_1006 g)). destruct (run_dec (decode_1006 g) p); [do 2 eexists; reflexivity..|contradiction]. }
  destruct now as [t|]; [|do 2 eexists; reflexivity].
  destruct (frame_type p =? 1033).
  { pose proof (run_nd _ p nd_1033). destruct (run_dec decode_1033 p) as [m| | |]; [|do 2 eexists; reflexivity..|contradiction].
    destruct (no_1230_received t last); [|do 2 eexists; reflexivity]. destruct (table_spec m) as (? & ? & ? & ? & ? & -> & _). do 2 eexists. reflexivity. }
  destruct (Z.eqb_spec (frame_type p) 1230) as [T|]; [|do 2 eexists; reflexivity].
  pose proof (run_nd _ p nd_1230). destruct (run_dec decode_1230 p) as [m| | |] eqn:E; [|do 2 eexists; reflexivity..|contradiction].
  pose proof (rx_1230 t last p m B E) as R. unfold sta_rx in R. destruct (first_field _ 1230 _ _ B E) as [L _]. destruct (Z.ltb_spec (len p) 2); [lia|]. rewrite T in R. cbn [Z.eqb Pos.eqb] in R. rewrite E in R. rewrite R. do 2 eexists; reflexivity.
Qed.
Lemma rx_last now last p last' o : bytes p -> sta_rx g now last p = Ok (last', o) -> last' = match now with Some t => if is_1230 p then t else last | None => last end.
Proof.
  intros B E. destruct now as [t|].
  - unfold is_1230. destruct (run_dec decode_1230 p) as [m| | |] eqn:D.
    + destruct (first_field _ 1230 _ _ B D) as [L T]. rewrite T. destruct (Z.leb_spec 2 (len p)); [|lia]. cbn [andb Z.eqb Pos.eqb]. rewrite (rx_1230 t last p m B D) in E. congruence.
    + rewrite andb_false_r. revert E. unfold sta_rx. destruct (len p <? 2); [congruence|]. destruct (_ =? 1005); [destruct (run_dec decode_1005 p); congruence|]. destruct (_ =? 1006); [destruct (run_dec (decode_1006 g) p); congruence|].
      destruct (_ =? 1033); [destruct (run_dec decode_1033 p) as [m| | |]; try congruence; destruct (no_1230_received t last); [destruct (m1033_to_sbp m)|]; cbn [bind]; congruence|]. destruct (_ =? 1230); [rewrite D|]; congruence.
    + rewrite andb_false_r. revert E. unfold sta_rx. destruct (len p <? 2); [congruence|]. destruct (_ =? 1005); [destruct (run_dec decode_1005 p); congruence|]. destruct (_ =? 1006); [destruct (run_dec (decode_1006 g) p); congruence|].
      destruct (_ =? 1033); [destruct (run_dec decode_1033 p) as [m| | |]; try congruence; destruct (no_1230_received t last); [destruct (m1033_to_sbp m)|]; cbn [bind]; congruence|]. destruct (_ =? 1230); [rewrite D|]; congruence.
    + destruct (run_nd _ p nd_1230 D).
  - revert E. unfold sta_rx. destruct (len p <? 2); [congruence|]. destruct (_ =? 1005); [destruct (run_dec decode_1005 p); congruence|]. destruct (_ =? 1006); [destruct (run_dec (decode_1006 g) p); congruence|]. congruence.
Qed.
Lemma rx_history h : Forall (fun e => bytes (snd e)) h -> exists last o, rx_run g T_UNKNOWN h = Ok (last, o) /\ last = match last_1230 h with Some t => t | None => T_UNKNOWN end.
Proof.
  assert (G : forall h cur last, Forall (fun e => bytes (snd e)) h -> last = match cur with Some t => t | None => T_UNKNOWN end ->
    exists last' o, rx_run g last h = Ok (last', o) /\ last' = match fold_left (fun cur e => match fst e with Some t => if is_1230 (snd e) then Some t else cur | None => cur end) h cur with Some t => t | None => T_UNKNOWN end).
  { clear h. induction h as [|[now p] h IH]; intros cur last B L; [do 2 eexists; split; [reflexivity|exact L]|]. inversion B as [|? ? Bp Bh]; subst. cbn [snd] in Bp.
    cbn [rx_run fold_left fst snd]. destruct (rx_total now (match cur with Some t => t | None => T_UNKNOWN end) p Bp) as (l1 & o1 & E1). rewrite E1. cbn [bind]. apply rx_last in E1; [|exact Bp].
    destruct (IH (match now with Some t => if is_1230 p then Some t else cur | None => cur end) l1 Bh) as (l2 & o2 & E2 & Q).
    { rewrite E1. destruct now; [destruct (is_1230 p)|]; reflexivity. }
    rewrite E2. cbn [bind]. do 2 eexists. split; [reflexivity|exact Q]. }
  intros B. apply (G h None T_UNKNOWN B eq_refl).
Qed.
Lemma valid_iff t : gps_time_valid t = true <-> valid_time t.
Proof. unfold gps_time_valid, valid_time, WEEK_MS. rewrite !andb_true_iff, !Z.leb_le, Z.ltb_lt. tauto. Qed.
Theorem C67_receiver_table h now p m :
  Forall (fun e => bytes (snd e)) h -> bytes p -> run_dec decode_1033 p = Ok m -> valid_time now ->
  exists last out, rx_run g T_UNKNOWN h = Ok (last, out) /\
    exists mask a b c d, guess (cstr (rcv_descriptor m)) mask a b c d /\
      ((match last_1230 h with Some t => valid_time t /\ abs_ms now - abs_ms t <= 120000 | None => False end /\ sta_rx g (Some now) last p = Ok (last, [])) \/
       (match last_1230 h with Some t => ~ valid_time t \/ 120000 < abs_ms now - abs_ms t | None => True end /\
        sta_rx g (Some now) last p = Ok (last, [SGloBiases (back16 (m33_stn_id m)) mask a b c d]))).
Proof.
  intros H B D VN. destruct (rx_history h H) as (last & out & E & L). exists last, out. split; [exact E|].
  destruct (table_spec m) as (mask & a & b & c & d & T & GU). exists mask, a, b, c, d. split; [exact GU|].
  destruct (first_field _ 1033 _ _ B D) as [L2 FT].
  assert (R : sta_rx g (Some now) last p = if no_1230_received now last then Ok (last, [SGloBiases (back16 (m33_stn_id m)) mask a b c d]) else Ok (last, [])).
  { unfold sta_rx. destruct (Z.ltb_spec (len p) 2); [lia|]. rewrite FT. cbn [Z.eqb Pos.eqb]. rewrite D, T. cbn [bind]. rewrite sender_back by (apply (accepted_1033 p m D)). reflexivity. }
  rewrite R. clear R. unfold no_1230_received. destruct (last_1230 h) as [t|]; subst last.
  - destruct (gps_time_valid t) eqn:V; cbn [negb orb].
    + apply valid_iff in V. assert (DT : gpsdifftime now t = abs_ms now - abs_ms t).
      { unfold gpsdifftime, abs_ms, WN_UNKNOWN, WEEK_MS. destruct VN as (N1 & N2), V as (V1 & V2). destruct (Z.eqb_spec (wn now) (-1)); [lia|]. destruct (Z.eqb_spec (wn t) (-1)); [lia|]. cbn [orb]. lia. }
      rewrite DT. unfold MSG_1230_TIMEOUT_MS. destruct (Z.ltb_spec 120000 (abs_ms now - abs_ms t)); [right|left]; (split; [|reflexivity]); [right; lia|split; [exact V|lia]].
    + right. split; [|reflexivity]. left. intros Q. apply valid_iff in Q. congruence.
  - right. split; [exact I|]. reflexivity.
Qed.
End Out.

(** *** Non-vacuity: a configured converter, and a base position and biases through it *)
Definition g0 : msg_1005 := mk1005 0 0 0 0 0 0 0 0 0 0 0.
Definition ant_name : list Z := txt "TRM57971.00     NONE            (cut here)".
Definition ex_history : list oev :=
  [OtherMsg 66; SetHeight (dec2 150); SetHeight (dofZ 7); SetDescriptors ant_name (txt "TRIMBLE NETR9"); GloBiases 1234 9 (-735) 0 0 700; BasePos 4095 (dofZ 0) (dofZ 1) (dofZ (-2))].
Definition pos_x : dbl := dec2 (-270428912). Definition pos_y : dbl := dec2 (-426302931). Definition pos_z : dbl := dec2 388572311.
Lemma coord_small n : Z.abs n <= 1000000000 -> coord_ok (dec2 n).
Proof.
  intros N. unfold dec2. assert (Z53 : 2 ^ 53 = 9007199254740992) by reflexivity. destruct (dofZ_exact n) as [F X]; [lia|]. destruct (dofZ_exact 100) as [F1 X1]; [lia|].
  assert (A : (Rabs (IZR n / 100) <= 10000000)%R).
  { unfold Rdiv. rewrite Rabs_mult, <- abs_IZR. apply IZR_le in N. rewrite (Rabs_pos_eq (/ 100)) by lra. lra. }
  assert (R53 : bpow radix2 53 = 9007199254740992%R) by reflexivity.
  destruct (ddiv_spec (dofZ n) (dofZ 100) F ltac:(rewrite X1; lra)) as [F2 X2].
  { rewrite X, X1. apply Rle_trans with (bpow radix2 53); [rewrite R53; lra|apply bpow_le; lia]. }
  split; [exact F2|]. unfold metres. fold (dR (ddiv (dofZ n) (dofZ 100))). rewrite X2, X, X1.
  pose proof (rnd_err (IZR n / 100) 24 ltac:(lia)) as E. assert (R24 : bpow radix2 24 = 16777216%R) by reflexivity. assert (R20 : (bpow radix2 (24 - 54) < 1)%R) by (change 1%R with (bpow radix2 0); apply bpow_lt; lia).
  specialize (E ltac:(rewrite R24; lra)). apply Rabs_le_inv in E. apply Rabs_le_inv in A. apply Rabs_le. lra.
Qed.
Example ex_history_ok : Forall ev_ok ex_history /\ coord_ok pos_x /\ coord_ok pos_y /\ coord_ok pos_z.
Proof.
  split; [|split; [|split]; apply coord_small; unfold Z.abs; lia].
  assert (I : forall n, Z.abs n <= 1000 -> coord_ok (dofZ n)).
  { intros n N. destruct (dofZ_exact n) as [F X]; [change (2 ^ 53) with 9007199254740992; lia|]. split; [exact F|]. unfold metres. fold (dR (dofZ n)). rewrite X, <- abs_IZR. apply IZR_le in N. lra. }
  repeat apply Forall_cons; try apply Forall_nil; cbn [ev_ok].
  - lia.
  - apply (coord_small 150). unfold Z.abs. lia.
  - apply I. unfold Z.abs. lia.
  - split; (vm_compute; repeat (apply Forall_cons; [split; discriminate|]); apply Forall_nil).
  - unfold s16. lia.
  - split; [lia|]. split; [|split]; apply I; unfold Z.abs; lia.
Qed.
(** the configuration of that history: the rejected height leaves 1.5 m in force *)
Example ex_history_runs :
  match orun (ost0 0) ex_history with
  | Ok (st, out) =>
    map len out = [14; 27; 43; 59] /\
    match ostep st (BasePos 4095 pos_x pos_y pos_z) with
    | Ok (_, [f6; f8; f33]) =>
      run_dec (decode_1006 g0) (payload_of f6) = Ok (mk1006 (mk1005 4095 0 1 1 1 0 (-27042891200) 1 (-42630293100) 0 38857231100) 15000) /\
      run_dec decode_1008 (payload_of f8) = Ok (mk1008 (mk1007 4095 (take 31 ant_name) 0) []) /\
      run_dec decode_1033 (payload_of f33) = Ok (mk1033 4095 (take 31 ant_name) 0 [] (txt "TRIMBLE NETR9") [] [])
    | _ => False
    end
  | _ => False
  end.
Proof. vm_compute. repeat split. Qed.
(** two receivers of the table and one that is not in it; the last 1230 is recent, old, absent *)
Definition p1033 (rcv : string) : list Z := match encode_rtcm3_frame (encode_1033 (mk1033 7 [65] 0 [] (txt rcv) [] [])) with Ok f => payload_of f | _ => [] end.
Definition p1230 : list Z := match glo_biases_cb 7 9 5 0 0 (-6) (ost0 0) with Ok (_, [f]) => payload_of f | _ => [] end.
Definition t0 : gtime := mkt 2000 604790000.
Example ex_receiver :
  Forall (fun e => bytes (snd e)) [(Some t0, p1230); (None, p1230)] /\ bytes (p1033 "TRIMBLE NETR9") /\ last_1230 [(Some t0, p1230); (None, p1230)] = Some t0 /\
  sta_rx g0 (Some (mkt 2001 110000)) t0 (p1033 "TRIMBLE NETR9") = Ok (t0, []) /\
  sta_rx g0 (Some (mkt 2001 110001)) t0 (p1033 "TRIMBLE NETR9") = Ok (t0, [SGloBiases 61575 15 953 953 953 953]) /\
  sta_rx g0 (Some t0) T_UNKNOWN (p1033 "Geo++ GNSMART (GLO=NOV)") = Ok (T_UNKNOWN, [SGloBiases 61575 9 (-3535) 0 0 (-3315)]) /\
  sta_rx g0 (Some t0) T_UNKNOWN (p1033 "UNKNOWN") = Ok (T_UNKNOWN, [SGloBiases 61575 0 0 0 0 0]) /\
  sta_rx g0 None T_UNKNOWN (p1033 "TRIMBLE") = Ok (T_UNKNOWN, []).
Proof.
  assert (B : forall l, forallb (fun c => (0 <=? c) && (c <? 256)) l = true -> bytes l).
  { intros l H. apply Forall_forall. intros c I. rewrite forallb_forall in H. specialize (H c I). rewrite andb_true_iff, Z.leb_le, Z.ltb_lt in H. exact H. }
  split; [|split; [|split; [|split; [|split; [|split; [|split]]]]]].
  - apply Forall_cons; [|apply Forall_cons; [|apply Forall_nil]]; apply B; vm_compute; reflexivity.
  - apply B. vm_compute. reflexivity.
  - vm_compute. reflexivity.
  - vm_compute. reflexivity.
  - vm_compute. reflexivity.
  - vm_compute. reflexivity.
  - vm_compute. reflexivity.
  - vm_compute. reflexivity.
Qed.

(** *** What does not hold *)
(** a NaN antenna height is accepted, and the next base position converts it to an integer (undefined behaviour) *)
Theorem C66_nan_height_refuted :
  exists h, fst (set_ant_height h (ost0 0)) = true /\ base_pos_cb 1 (dofZ 0) (dofZ 0) (dofZ 0) (snd (set_ant_height h (ost0 0))) = Ub.
Proof. exists (dofbits 9221120237041090560). split; vm_compute; reflexivity. Qed.
(** a coordinate beyond the 38-bit field is not refused: 20000 km becomes -7487.79 km on the wire; 10^300 m is an undefined conversion *)
Theorem C66_far_coordinate_refuted :
  match base_pos_cb 1 (dofZ 20000000) (dofZ 0) (dofZ 0) (ost0 0) with
  | Ok (_, [f]) => exists m, run_dec (decode_1006 g0) (payload_of f) = Ok m /\ arp_x (m6_1005 m) = -74877906944
  | _ => False end /\
  base_pos_cb 1 (dofZ (10 ^ 300)) (dofZ 0) (dofZ 0) (ost0 0) = Ub.
Proof.
  split; [|vm_compute; reflexivity]. vm_compute. eexists. split; reflexivity.
Qed.
(** the station number is not kept on the way RTCM -> SBP -> RTCM when its bit 7 is clear *)
Theorem C66_station_number_refuted : exists n, ubits 12 n /\ stn12 (back16 n) <> n.
Proof. exists 5. split; [unfold ubits; lia|vm_compute; discriminate]. Qed.

Print Assumptions C66_base_position_out.
Print Assumptions C66_base_position_in_and_back.
Print Assumptions C66_nan_height_refuted.
Print Assumptions C66_far_coordinate_refuted.
Print Assumptions C66_station_number_refuted.
Print Assumptions C67_biases_out_and_back.
Print Assumptions C67_biases_in_and_back.
Print Assumptions C67_receiver_table.
