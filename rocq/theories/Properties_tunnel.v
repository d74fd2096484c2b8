(** C69: SBP messages tunnelled through RTCM 4062.  C70: log texts through RTCM 1029.  C71: the MSM1-3 warning.  C72: SBAS frames of RTCM 4075.
    [sbp_ok] is the verdict of libsbp's sbp_message_decode: every theorem holds for all of them. *)
From Coq Require Import String Ascii.
From Verif Require Import Base Bitstring Bits_model Bits_proofs Bitstream_model Bitstream_proofs RtcmFraming_model RtcmFraming_spec RtcmFraming_proofs
  RtcmFrameOut_model RtcmStation_model RtcmStation_spec Subframes_model Subframes_spec Sbas_proofs StaConv_model StaConv_spec StaConv_wire_proofs Tunnel_model Tunnel_spec Tunnel_proofs.
Import ListNotations.
Open Scope Z_scope.
Open Scope list_scope.

(** ** C69 *)
(** Any sequence of OSR and SSR messages (any sender, any payload of up to 255 bytes) becomes one frame each; for every way the bytes of these
    frames are split into reads, the receiver finds exactly these frames; and processing them, whether or not the time is known, whatever lies in
    the buffer behind them and whatever was received before, emits exactly the messages libsbp accepts: same type, same sender, same payload, in order. *)
Theorem C69_messages_arrive_unchanged : forall sbp_ok ms, Forall wf_sbp ms -> Forall (fun m => In (s_type m) tunnelled) ms ->
  exists fs, Forall2 (fun m f => tunnel_tx (s_type m) (s_sender m) (s_payload m) = Some (Ok f)) ms fs /\
    (forall chunks, Forall good_read chunks -> concat chunks = concat fs -> exists r, RtcmFraming_model.run chunks = Some (r, fs)) /\
    (forall es w, Forall2 (fun e f => take (rx_len e) (rx_mem e) = payload_of f) es fs ->
       tunnel_run sbp_ok w es = Ok (w, map (fun m => TSbp (s_sender m) (s_type m) (s_payload m)) (filter (fun m => sbp_ok (s_type m) (s_payload m)) ms))).
Proof.
  intros sbp_ok ms W T. destruct (tunnel_many sbp_ok ms W) as (fs & S & V & H). exists fs. split; [exact S|]. split.
  - intros chunks G C. exact (frames_delivered fs chunks V G C).
  - intros es w A. destruct (H es w A) as (os & E & C). rewrite E. repeat f_equal. clear - T C. revert os C. induction T as [|m ms M T IH]; intros os C; inversion C; subst; [reflexivity|].
    cbn [concat filter]. rewrite (IH _ H3). clear IH H3 C. unfold carried in H1. assert (N : (s_type m =? 1025) = false).
    { unfold tunnelled in M. cbn [In] in M. destruct (Z.eqb_spec (s_type m) 1025); [|reflexivity]. exfalso. lia. }
    rewrite N in H1. rewrite H1. destruct (sbp_ok _ _); reflexivity.
Qed.
Example C69_example : wf_sbp (mksbp 1501 0x1234 [1; 2; 3; 255]) /\ exists f, tunnel_tx 1501 0x1234 [1; 2; 3; 255] = Some (Ok f) /\ len f = 17 /\
  tunnel_rx (fun _ _ => true) false (payload_of f ++ [9; 9; 9; 0; 0]) 11 true = Ok (true, [TSbp 0x1234 1501 [1; 2; 3; 255]]).
Proof.
  split.
  - unfold wf_sbp, ubits, tunnelled. cbn. repeat split; try lia; try (left; tauto); repeat constructor; unfold byte; lia.
  - eexists. split; [vm_compute; reflexivity|]. split; vm_compute; reflexivity.
Qed.

(** ** C70 *)
(** Any interleaving of such messages and log messages: additionally every log message arrives, in its place, as one informational log message of
    the sender's station number, "RTCM: " followed by the text; texts of up to 247 bytes whole, longer ones cut to 247 or 248 bytes.
    Partial: the level is lost and the character count of the 1029 message is 0 (refuted below). *)
Theorem C70_log_texts_arrive_partial : forall sbp_ok ms, Forall wf_sbp ms ->
  exists fs, Forall2 (fun m f => tunnel_tx (s_type m) (s_sender m) (s_payload m) = Some (Ok f)) ms fs /\
    (forall chunks, Forall good_read chunks -> concat chunks = concat fs -> exists r, RtcmFraming_model.run chunks = Some (r, fs)) /\
    (forall es w, Forall2 (fun e f => take (rx_len e) (rx_mem e) = payload_of f) es fs ->
       exists os, tunnel_run sbp_ok w es = Ok (w, concat os) /\ Forall2 (carried sbp_ok) ms os).
Proof.
  intros sbp_ok ms W. destruct (tunnel_many sbp_ok ms W) as (fs & S & V & H). exists fs. split; [exact S|]. split; [|exact H].
  intros chunks G C. exact (frames_delivered fs chunks V G C).
Qed.
(** log messages without text are not sent at all *)
Theorem C70_empty_text_not_sent : forall sender msg, len msg < 2 -> tunnel_tx 1025 sender msg = None.
Proof. intros sender msg H. unfold tunnel_tx. cbn [Z.eqb Pos.eqb SBP_MSG_OSR SBP_MSG_SSR_ORBIT_CLOCK SBP_MSG_SSR_PHASE_BIASES SBP_MSG_SSR_CODE_BIASES SBP_MSG_SSR_GRIDDED_CORRECTION_DEP_A
        SBP_MSG_SSR_GRID_DEFINITION_DEP_A SBP_MSG_SSR_STEC_CORRECTION_DEP_A SBP_MSG_LOG]. unfold log_cb. destruct (Z.ltb_spec (len msg) 2); [reflexivity|lia]. Qed.
(** finding: an emergency and a debug message become the same frame *)
Theorem C70_level_refuted : forall sender text, tunnel_tx 1025 sender (0 :: text) = tunnel_tx 1025 sender (7 :: text).
Proof. reflexivity. Qed.
(** finding: the 1029 message says that it has no characters, whatever its text *)
Theorem C70_character_count_refuted : forall sender msg, 2 <= len msg <= 255 -> bytes msg ->
  exists f m, tunnel_tx 1025 sender msg = Some (Ok f) /\ run_dec decode_1029 (payload_of f) = Ok m /\ utf8_code_units m = drop 1 msg /\ unicode_chars m = 0.
Proof.
  intros sender msg L B. assert (Et : take (len msg - 1) (drop 1 msg) = drop 1 msg) by (apply take_all; rewrite len_drop; lia).
  assert (TX : text 255 (drop 1 msg)) by (split; [apply Forall_drop; exact B|rewrite len_drop; lia]).
  destruct (framed _ _ _ _ (rt_1029_mod sender (drop 1 msg) TX)) as (f & E & _ & D & _); [rewrite len_drop; lia|].
  exists f, (mk1029 (stn12 sender) 0 0 0 (drop 1 msg)). split; [|split; [exact D|split; reflexivity]].
  unfold tunnel_tx. cbn [Z.eqb Pos.eqb SBP_MSG_OSR SBP_MSG_SSR_ORBIT_CLOCK SBP_MSG_SSR_PHASE_BIASES SBP_MSG_SSR_CODE_BIASES SBP_MSG_SSR_GRIDDED_CORRECTION_DEP_A
        SBP_MSG_SSR_GRID_DEFINITION_DEP_A SBP_MSG_SSR_STEC_CORRECTION_DEP_A SBP_MSG_LOG]. unfold log_cb. destruct (Z.ltb_spec (len msg) 2); [lia|]. rewrite Et, E. reflexivity.
Qed.
Example C70_example : wf_sbp (mksbp 1025 0x1005 [3; 72; 105]) /\ exists f, tunnel_tx 1025 0x1005 [3; 72; 105] = Some (Ok f) /\
  tunnel_rx (fun _ _ => true) false (payload_of f) 11 false = Ok (false, [TLog 0xF085 6 [82; 84; 67; 77; 58; 32; 72; 105]]).
Proof.
  split.
  - unfold wf_sbp, ubits. cbn. repeat split; try lia; try (right; lia); repeat constructor; unfold byte; lia.
  - eexists. split; [vm_compute; reflexivity|]. vm_compute. reflexivity.
Qed.

(** ** C71 *)
(** over any history of payloads, from any state, at most one warning is sent *)
Theorem C71_at_most_one_warning : forall sbp_ok w h w' o, tunnel_run sbp_ok w h = Ok (w', o) -> warnings o <= 1.
Proof. intros sbp_ok w h w' o E. apply (run_warn sbp_ok h w w' o E). Qed.
(** the first MSM1-3 message of at least five bytes causes the warning, whether or not the time is known.  Partial: a shorter one suppresses the
    warning for good, and the sender is wrong (refuted below) *)
Theorem C71_first_message_warns_partial : forall sbp_ok solved mem n, is_msm123 (frame_type (take n mem)) -> 5 <= len (take n mem) ->
  exists sender, tunnel_rx sbp_ok solved mem n false = Ok (true, [TLog sender 4 MSM_WARNING]).
Proof.
  intros sbp_ok solved mem n T L. unfold tunnel_rx. cbv zeta. set (p := take n mem) in *. destruct (Z.ltb_spec (len p) 2); [lia|].
  pose proof (proj2 (msm123_iff _) T) as X.
  assert (G : existsb (Z.eqb (frame_type p)) ObsBuffer_model.ungated = true).
  { apply existsb_exists in X. destruct X as (x & I & Q). apply existsb_exists. exists x. split; [|exact Q]. unfold msm123 in I. unfold ObsBuffer_model.ungated. cbn [In] in *. clear - I. tauto. }
  rewrite G. cbn [negb]. rewrite andb_false_r. assert (N : (frame_type p =? 1029) = false) by (unfold is_msm123 in T; lia). rewrite N, X.
  unfold send_MSM_warning. cbn [negb]. destruct (Z.leb_spec 36 (8 * len p)); [|lia]. eexists. reflexivity.
Qed.
(** finding: the sender is made of the last 4 bits of the station number and 12 bits of the epoch time *)
Theorem C71_sender_refuted : exists p stn sender, bits_of_bytes p = fields_bits [(12, 1071); (12, stn); (30, 19088743); (2, 0)] /\
  tunnel_rx (fun _ _ => true) false p (len p) false = Ok (true, [TLog sender 4 MSM_WARNING]) /\ sender <> back16 stn.
Proof. exists [0x42; 0xF0; 0x05; 0x04; 0x8D; 0x15; 0x9C], 5. eexists. split; [vm_compute; reflexivity|]. split; [vm_compute; reflexivity|]. vm_compute. discriminate. Qed.
(** finding: a truncated first message leaves the stream without any warning *)
Theorem C71_short_message_refuted : exists h, Forall (fun e => is_msm123 (frame_type (take (rx_len e) (rx_mem e)))) h /\ In (mkrx true [0x42; 0xF0; 0x05; 0x04; 0x8D] 5) h /\
  tunnel_run (fun _ _ => true) false h = Ok (true, []).
Proof.
  exists [mkrx true [0x42; 0xF0; 0x05; 0x04] 4; mkrx true [0x42; 0xF0; 0x05; 0x04; 0x8D] 5]. split; [|split; [right; left; reflexivity|vm_compute; reflexivity]].
  repeat constructor; vm_compute; discriminate.
Qed.
Example C71_example : is_msm123 (frame_type [0x42; 0xF0; 0x05; 0x04; 0x8D]) /\ is_msm123 1123 /\ ~ is_msm123 1124 /\ warnings [TLog 1 4 MSM_WARNING] = 1.
Proof. split; [repeat split; vm_compute; discriminate|]. split; [repeat split; vm_compute; discriminate|]. split; [unfold is_msm123; cbn; lia|vm_compute; reflexivity]. Qed.

(** ** C72 *)
(** A 4075 message with any number of frames of any systems: exactly its intact SBAS frames of PRN 120..158 are forwarded, in order, with the
    station's sender, the frame's epoch time, the SBAS message type and its 212 data bits; whether or not the time is known, whatever follows in the
    buffer.  Partial: SBAS frames must be padded to 256..288 bits (refuted for 250), and the message must contain what it announces. *)
Theorem C72_sbas_frames_forwarded_partial : forall sbp_ok solved mem n w stn fs pad, bytes mem -> 0 <= n <= len mem ->
  ubits 12 stn -> Forall wf_nav fs -> len fs <= 63 -> (forall f, In f fs -> f_sys f = 3 -> 256 <= len (f_bits f) <= 288) ->
  bits_of_bytes (take n mem) = msg4075_bits stn fs ++ pad ->
  tunnel_rx sbp_ok solved mem n w = Ok (w, flat_map (forwarded stn) fs).
Proof.
  intros sbp_ok solved mem n w stn fs pad B N U W L S E. unfold tunnel_rx. cbv zeta. set (p := take n mem) in *.
  assert (Bp : bytes p) by (apply Forall_take; exact B).
  destruct (bits_first p 4075 [(12, stn); (2, 0); (6, len fs)] (flat_map nav_bits fs ++ pad)) as (L2 & T); [exact Bp|lia|unfold msg4075_bits in E; rewrite <- app_assoc in E; exact E|].
  destruct (Z.ltb_spec (len p) 2); [lia|]. rewrite T. cbn [existsb ObsBuffer_model.ungated msm123 Z.eqb Pos.eqb orb negb andb]. rewrite andb_false_r.
  assert (M : bits_of_bytes mem = msg4075_bits stn fs ++ (pad ++ bits_of_bytes (drop n mem))).
  { rewrite <- (take_drop n mem) at 1. rewrite bits_of_bytes_app. fold p. rewrite E, <- app_assoc. reflexivity. }
  unfold run_dec. rewrite M, decode_4075_of by assumption. repeat f_equal. clear - U W S. induction W as [|f fs W1 W IH]; [reflexivity|]. cbn [map flat_map]. f_equal.
  - apply ndf_frame_out; [exact U|exact W1|]. apply S. left. reflexivity.
  - apply IH. intros g I. apply S. right. exact I.
Qed.
(** whatever is received: every forwarded SBAS message is intact and of a PRN in range, and its type and data are those of the intact bits *)
Theorem C72_only_intact : forall sbp_ok h w w' o sd prn tow mt d, tunnel_run sbp_ok w h = Ok (w', o) -> In (TSbas sd prn tow mt d) o ->
  120 <= prn <= 158 /\ exists l, intact l = true /\ mt = val_be (sub l 8 6) /\ d = sub l 14 212.
Proof.
  intros sbp_ok h. induction h as [|e h IH]; intros w w' o sd prn tow mt d E I; cbn [tunnel_run] in E; [injection E as <- <-; destruct I|].
  destruct (tunnel_rx sbp_ok (rx_solved e) (rx_mem e) (rx_len e) w) as [[w1 o1]| | |] eqn:E1; try discriminate. cbn [bind] in E.
  destruct (tunnel_run sbp_ok w1 h) as [[w2 o2]| | |] eqn:E2; try discriminate. cbn [bind] in E. injection E as <- <-.
  apply in_app_or in I. destruct I as [I|I]; [|exact (IH _ _ _ _ _ _ _ _ E2 I)]. clear IH E2 h w2 o2. unfold tunnel_rx in E1. cbv zeta in E1.
  destruct (len (take (rx_len e) (rx_mem e)) <? 2); [injection E1 as <- <-; destruct I|]. destruct (_ && _); [injection E1 as <- <-; destruct I|].
  destruct (_ =? 1029).
  { destruct (run_dec decode_1029 _) as [m| | |]; try discriminate; injection E1 as <- <-; try destruct I. unfold send_1029 in I. destruct (Log1029_model.log_1029 _); [|destruct I].
    unfold log_message in I. destruct (_ <=? _); [destruct I|]. destruct I as [I|[]]. discriminate. }
  destruct (existsb _ msm123).
  { unfold send_MSM_warning in E1. destruct (negb w); injection E1 as <- <-; [|destruct I]. destruct (36 <=? _); [|destruct I]. unfold log_message in I. destruct (_ <=? _); [destruct I|]. destruct I as [I|[]]. discriminate. }
  destruct (_ =? 4062).
  { destruct (run_dec decode_4062 _) as [m| | |]; try discriminate; injection E1 as <- <-; try destruct I. destruct (sbp_ok _ _); [|destruct I]. destruct I as [I|[]]. discriminate. }
  destruct (_ =? 4075); [|injection E1 as <- <-; destruct I].
  destruct (run_dec decode_4075 _) as [[stn fs]| | |]; try discriminate; injection E1 as <- <-; try destruct I.
  apply in_flat_map in I. destruct I as (f & _ & I). unfold ndf_out in I. destruct (nf_sys f =? 3); [|destruct I]. cbv zeta in I.
  unfold prn_in in I. cbn [Signals_model.first_prn Signals_model.prn_count] in I.
  destruct (negb ((120 <=? nf_num f + 120) && (nf_num f + 120 <? 120 + 39))) eqn:R; [destruct I|].
  destruct (sbas_step (nf_num f + 120) (nf_epoch f) (nf_words f)) as [x|] eqn:Q; [|destruct I]. apply sbas_step_spec in Q. destruct Q as (_ & SI & ->).
  destruct I as [I|[]]. injection I as <- <- <- <- <-. split; [lia|]. exists (word_bits (take 8 (nf_words f))). split; [|split; reflexivity].
  apply intact_iff. unfold sbas_intact in SI. cbv zeta in SI. rewrite take_take in SI. exact SI.
Qed.
(** an intact 250-bit SBAS message, and a 4075 message with it, padded to 256 bits *)
Definition sbas250 : list bool := let d := bits_be 8 0x53 ++ repeat false 218 in d ++ bits_be 24 (crc24q_bits d).
Definition nav256 : navframe := mknav 3 13 0 1 345600000 1 (sbas250 ++ repeat false 6).
Definition nav250 : navframe := mknav 3 13 0 1 345600000 1 sbas250.
(** bytes of a bit string whose length is a multiple of 8 *)
Fixpoint bytes_of_bits (k : nat) (l : list bool) : list Z := match k with O => [] | S k => val_be (take 8 l) :: bytes_of_bits k (drop 8 l) end.
(** finding: the frame size of an SBAS message is 250 bits; such a frame is lost although it is intact, because the last 26 bits are right-justified in their word *)
Theorem C72_250_bits_refuted : exists p, intact sbas250 = true /\ wf_nav nav250 /\ forwarded 5 nav250 <> [] /\
  bits_of_bytes p = msg4075_bits 5 [nav250] /\ tunnel_rx (fun _ _ => true) true p (len p) false = Ok (false, []).
Proof.
  exists (bytes_of_bits 43 (msg4075_bits 5 [nav250])). split; [vm_compute; reflexivity|].
  split; [unfold wf_nav, ubits; repeat split; vm_compute; try reflexivity; discriminate|]. split; [vm_compute; discriminate|]. split; vm_compute; reflexivity.
Qed.
(** finding: the announced contents are read without regard to the length of the message: a four-byte message is completed with the bytes that follow it in the receive buffer ... *)
Theorem C72_reads_other_bytes_refuted : exists p rest1 rest2 o, len p = 4 /\ o <> [] /\
  tunnel_rx (fun _ _ => true) true (p ++ rest1) 4 false = Ok (false, o) /\ tunnel_rx (fun _ _ => true) true (p ++ rest2) 4 false = Ok (false, []).
Proof.
  exists [0xFE; 0xB0; 0x05; 0x01], (bytes_of_bits 40 (nav_bits nav256 ++ repeat false 2)), (repeat 0 40). eexists. split; [reflexivity|]. split; [|split; [vm_compute; reflexivity|vm_compute; reflexivity]]. discriminate.
Qed.
(** ... or of memory beyond the buffer *)
Theorem C72_reads_outside_refuted : exists mem, len mem = 8 /\ tunnel_rx (fun _ _ => true) true mem 4 false = Ub.
Proof. exists [0xFE; 0xB0; 0x05; 0x3F; 1; 2; 3; 0]. split; vm_compute; reflexivity. Qed.
Example C72_example : exists p, wf_nav nav256 /\ bits_of_bytes p = msg4075_bits 5 [nav256] ++ repeat false 2 /\
  tunnel_rx (fun _ _ => true) false p (len p) true = Ok (true, [TSbas 0xF085 133 345600000 0 (repeat false 212)]).
Proof.
  exists (bytes_of_bits 44 (msg4075_bits 5 [nav256] ++ repeat false 2)).
  split; [unfold wf_nav, ubits; repeat split; vm_compute; try reflexivity; discriminate|]. split; vm_compute; reflexivity.
Qed.

Print Assumptions C69_messages_arrive_unchanged.
Print Assumptions C70_log_texts_arrive_partial.
Print Assumptions C70_empty_text_not_sent.
Print Assumptions C70_level_refuted.
Print Assumptions C70_character_count_refuted.
Print Assumptions C71_at_most_one_warning.
Print Assumptions C71_first_message_warns_partial.
Print Assumptions C71_sender_refuted.
Print Assumptions C71_short_message_refuted.
Print Assumptions C72_sbas_frames_forwarded_partial.
Print Assumptions C72_only_intact.
Print Assumptions C72_250_bits_refuted.
Print Assumptions C72_reads_other_bytes_refuted.
Print Assumptions C72_reads_outside_refuted.
