(** Lemmas for C69-C72. *)
From Coq Require Import String Ascii.
From Verif Require Import Base Bitstring Bits_model Bits_proofs Bitstream_model Bitstream_proofs
  RtcmFraming_model RtcmFraming_spec RtcmFraming_proofs RtcmFrameOut_model RtcmFrameOut_proofs RtcmStation_model RtcmStation_spec RtcmStation_proofs RtcmMessage_proofs
  Log1029_model Log1029_proofs Subframes_model Subframes_spec Subframes_proofs Sbas_proofs StaConv_model StaConv_spec StaConv_wire_proofs Tunnel_model Tunnel_spec.
Import ListNotations.
Open Scope Z_scope.
Open Scope list_scope.

(** ** 1029 with a 16-bit station number: the field keeps its low 12 bits *)
Lemma rt_1029_mod stn l : text 255 l -> round_trips (encode_1029 (mk1029 stn 0 0 0 l)) (run_dec decode_1029) (9 + len l) (mk1029 (stn12 stn) 0 0 0 l).
Proof.
  intros H. pose proof H as [Hb Hl]. pose proof (len_nonneg l). apply fields_round_trip.
  - widths.
  - rewrite total_app, total_string. cbn [total fold_right fst m29_stn_id mjd_num utc_sec_of_day unicode_chars utf8_code_units]. unfold byte_len.
    replace (12 + (12 + (16 + (17 + (7 + 0)))) + (8 + 8 * len l) + 7) with (7 + (9 + len l) * 8) by lia. rewrite Z.div_add by lia. reflexivity.
  - intros pad. unfold decode_1029, expect. cbn [app m29_stn_id mjd_num utc_sec_of_day unicode_chars utf8_code_units]. dstep. cbn [Z.eqb Pos.eqb].
    rewrite bind_u_mod by lia. rewrite bind_u by (cbn; lia). rewrite bind_u by (cbn; lia). rewrite bind_u by (cbn; lia).
    rewrite fields_string_eq. rewrite bind_u by lia. rewrite to_nat_len.
    replace (byte_fields l) with (byte_fields l ++ []) by apply app_nil_r. rewrite bind_bytes by exact Hb. eexists. reflexivity.
Qed.
Lemma type_field {A} (d : dec A) n p a : bytes p -> run_dec (expect n d) p = Ok a -> (len p <? 2) = false /\ frame_type p = n.
Proof. intros B E. destruct (first_field d n p a B E). split; [lia|assumption]. Qed.

(** ** one message *)
Definition sends (m : sbpmsg) (f : list Z) : Prop := tunnel_tx (s_type m) (s_sender m) (s_payload m) = Some (Ok f).
Definition arrives (e : rx_event) (f : list Z) : Prop := take (rx_len e) (rx_mem e) = payload_of f.
Lemma tunnel_one sbp_ok m : wf_sbp m -> exists f, sends m f /\ valid_frame f /\
  (forall e w, arrives e f -> exists o, tunnel_rx sbp_ok (rx_solved e) (rx_mem e) (rx_len e) w = Ok (w, o) /\ carried sbp_ok m o).
Proof.
  destruct m as [ty sd pl]. unfold wf_sbp, sends, carried. cbn [s_type s_sender s_payload]. intros (T & U & B & L). pose proof (len_nonneg pl).
  destruct T as [T | [-> L2]].
  - assert (WF : wf_4062 (mk4062 ty sd pl)).
    { unfold wf_4062, text. cbn [msg_type sender_id data]. split; [|split; [exact U|split; [exact B|exact L]]].
      unfold tunnelled in T. cbn [In] in T. unfold ubits. change (2 ^ 16) with 65536. intuition lia. }
    pose proof (rt_4062 _ WF) as R. cbn [data] in R. destruct (framed _ _ _ _ R) as (f & E & V & D & Bf & Lf); [lia|].
    exists f. split; [|split; [exact V|]].
    + assert (X : tunnel_tx ty sd pl = Some (wrap_cb ty sd pl)).
      { unfold tunnelled in T. cbn [In] in T. repeat (destruct T as [<- | T]; [reflexivity|]). destruct T. }
      rewrite X. unfold wrap_cb. rewrite E. reflexivity.
    + intros e w A. unfold tunnel_rx, arrives in *. rewrite A. destruct (type_field _ _ _ _ Bf D) as (-> & ->).
      cbn [existsb ObsBuffer_model.ungated msm123 Z.eqb Pos.eqb orb negb andb]. rewrite andb_false_r. rewrite D. cbn [msg_type data sender_id].
      assert (N : (ty =? 1025) = false) by (unfold tunnelled in T; cbn [In] in T; intuition lia). rewrite N. eexists. split; reflexivity.
  - set (t := take (len pl - 1) (drop 1 pl)).
    assert (Et : t = drop 1 pl) by (unfold t; apply take_all; rewrite len_drop; lia).
    assert (Lt : len t = len pl - 1) by (rewrite Et, len_drop; lia).
    assert (TX : text 255 t). { split; [|lia]. rewrite Et. apply Forall_drop. exact B. }
    pose proof (rt_1029_mod sd t TX) as R. destruct (framed _ _ _ _ R) as (f & E & V & D & Bf & Lf); [lia|].
    exists f. split; [|split; [exact V|]].
    + unfold tunnel_tx. cbn [Z.eqb Pos.eqb SBP_MSG_OSR SBP_MSG_SSR_ORBIT_CLOCK SBP_MSG_SSR_PHASE_BIASES SBP_MSG_SSR_CODE_BIASES SBP_MSG_SSR_GRIDDED_CORRECTION_DEP_A
        SBP_MSG_SSR_GRID_DEFINITION_DEP_A SBP_MSG_SSR_STEC_CORRECTION_DEP_A SBP_MSG_LOG].
      unfold log_cb. destruct (Z.ltb_spec (len pl) 2); [lia|]. fold t. rewrite E. reflexivity.
    + intros e w A. unfold tunnel_rx, arrives in *. rewrite A. destruct (type_field _ _ _ _ Bf D) as (-> & ->).
      cbn [existsb ObsBuffer_model.ungated msm123 Z.eqb Pos.eqb orb negb andb]. rewrite andb_false_r. rewrite D.
      unfold send_1029. cbn [utf8_code_units m29_stn_id].
      destruct (log_1029_form t) as (n & E1 & Hn); [lia|]. rewrite E1. unfold log_message, SBP_MAX_PAYLOAD_LEN.
      assert (Ln : len (RTCM_LOG_PREAMBLE ++ take n t) <= 254 /\ (len t < 248 -> n = len t) /\ (248 <= len t -> 247 <= n <= 248)).
      { rewrite len_app, len_take. change (len RTCM_LOG_PREAMBLE) with 6. destruct (Z.ltb_spec (len t) 248); [lia|]. destruct (_ || _); lia. }
      destruct (Z.leb_spec 255 (len (RTCM_LOG_PREAMBLE ++ take n t))); [lia|]. eexists. split; [reflexivity|]. cbn [Z.eqb Pos.eqb].
      exists n. rewrite Et. split; [|rewrite Lt in Ln; lia]. rewrite sender_back by apply stn_range. reflexivity.
Qed.
(** ** histories *)
Lemma tunnel_many sbp_ok ms : Forall wf_sbp ms -> exists fs, Forall2 sends ms fs /\ Forall valid_frame fs /\
  (forall es w, Forall2 arrives es fs -> exists os, tunnel_run sbp_ok w es = Ok (w, concat os) /\ Forall2 (carried sbp_ok) ms os).
Proof.
  induction 1 as [|m ms M MS IH].
  - exists []. split; [constructor|]. split; [constructor|]. intros es w A. inversion A; subst. exists []. split; [reflexivity|constructor].
  - destruct IH as (fs & S & V & IH). destruct (tunnel_one sbp_ok m M) as (f & S1 & V1 & H1). exists (f :: fs).
    split; [constructor; assumption|]. split; [constructor; assumption|].
    intros es w A. inversion A as [|e f' es' fs' A1 A2]; subst. destruct (H1 e w A1) as (o & E & C). destruct (IH es' w A2) as (os & E2 & C2).
    exists (o :: os). split; [|constructor; assumption]. cbn [tunnel_run]. rewrite E. cbn [bind]. rewrite E2. reflexivity.
Qed.

(** ** C71 *)
Lemma warnings_app a b : warnings (a ++ b) = warnings a + warnings b.
Proof. unfold warnings. rewrite filter_app, len_app. reflexivity. Qed.
Lemma no_warnings l : (forall o, In o l -> is_msm_warning o = false) -> warnings l = 0.
Proof.
  intros H. unfold warnings. replace (filter is_msm_warning l) with (@nil tout); [reflexivity|]. symmetry.
  induction l as [|a l IH]; [reflexivity|]. cbn [filter]. rewrite (H a (or_introl eq_refl)). apply IH. intros o I. apply H. right. exact I.
Qed.
Lemma ndf_no_warning stn f o : In o (ndf_out stn f) -> is_msm_warning o = false.
Proof.
  unfold ndf_out. destruct (nf_sys f =? 3); [|intros []]. cbv zeta. destruct (negb _); [intros []|].
  destruct (sbas_step _ _ _) as [[]|]; try (intros []; fail). intros [<- | []]. reflexivity.
Qed.
Lemma log_1029_no_warning m o : In o (send_1029 m) -> is_msm_warning o = false.
Proof.
  unfold send_1029. destruct (log_1029 (utf8_code_units m)) as [t|] eqn:E; [|intros []]. unfold log_message. destruct (_ <=? _); [intros []|].
  intros [<- | []]. cbn [is_msm_warning].
  destruct (list_eq_dec Z.eq_dec t _) as [Q|]; [|reflexivity]. exfalso. unfold log_1029 in E. cbv zeta in E.
  match type of E with (if ?c then _ else _) = _ => destruct c; [discriminate|] end. injection E as E. rewrite Q in E. clear Q.
  match type of E with take ?n ?l = _ => assert (X : znth 0 0 (take n l) = 77) by (rewrite E; reflexivity); revert X; generalize n end. clear E.
  intros n X. unfold take, znth in X. destruct (Z.to_nat n); cbn in X; lia.
Qed.
Lemma rx_warn sbp_ok s mem n w w' o : tunnel_rx sbp_ok s mem n w = Ok (w', o) ->
  (w = true -> w' = true /\ warnings o = 0) /\ (w = false -> (w' = false /\ warnings o = 0) \/ (w' = true /\ warnings o <= 1)).
Proof.
  unfold tunnel_rx. cbv zeta. set (p := take n mem). clearbody p.
  assert (Z0 : forall w o, Ok (w, @nil tout) = Ok (w', o) -> w' = w /\ warnings o = 0) by (intros; split; [congruence|assert (o0 = []) by congruence; subst; reflexivity]).
  assert (K : w' = w /\ warnings o = 0 -> (w = true -> w' = true /\ warnings o = 0) /\ (w = false -> (w' = false /\ warnings o = 0) \/ (w' = true /\ warnings o <= 1))).
  { intros [-> ->]. destruct w; split; intros; try discriminate; auto. }
  destruct (len p <? 2); [intros E; apply K, (Z0 _ _ E)|].
  destruct (_ && _); [intros E; apply K, (Z0 _ _ E)|].
  destruct (frame_type p =? 1029).
  { destruct (run_dec decode_1029 p) as [m| | |]; intros E; try discriminate; try (apply K, (Z0 _ _ E)).
    apply K. injection E as <- <-. split; [reflexivity|]. apply no_warnings. intros x. apply log_1029_no_warning. }
  destruct (existsb _ msm123).
  { unfold send_MSM_warning. destruct w; cbn [negb]; intros E; [apply K, (Z0 _ _ E)|]. split; [discriminate|]. intros _. right.
    injection E as <- <-. split; [reflexivity|]. destruct (36 <=? _); [|cbn; lia]. unfold log_message. destruct (_ <=? _); [cbn; lia|].
    unfold warnings. cbn [filter]. destruct (is_msm_warning _); cbn; lia. }
  destruct (frame_type p =? 4062).
  { destruct (run_dec decode_4062 p) as [m| | |]; intros E; try discriminate; try (apply K, (Z0 _ _ E)).
    apply K. injection E as <- <-. split; [reflexivity|]. destruct (sbp_ok _ _); reflexivity. }
  destruct (frame_type p =? 4075); [|intros E; apply K, (Z0 _ _ E)].
  destruct (run_dec decode_4075 mem) as [[stn fs]| | |]; intros E; try discriminate; try (apply K, (Z0 _ _ E)).
  apply K. injection E as <- <-. split; [reflexivity|]. apply no_warnings. intros x I. apply in_flat_map in I. destruct I as (f & _ & I). apply (ndf_no_warning stn f x I).
Qed.
Lemma run_warn sbp_ok h : forall w w' o, tunnel_run sbp_ok w h = Ok (w', o) -> (w = true -> warnings o = 0) /\ warnings o <= 1.
Proof.
  induction h as [|e h IH]; intros w w' o E; cbn [tunnel_run] in E.
  - injection E as <- <-. split; [reflexivity|]. cbn. lia.
  - destruct (tunnel_rx sbp_ok (rx_solved e) (rx_mem e) (rx_len e) w) as [[w1 o1]| | |] eqn:E1; try discriminate. cbn [bind] in E.
    destruct (tunnel_run sbp_ok w1 h) as [[w2 o2]| | |] eqn:E2; try discriminate. cbn [bind] in E. injection E as <- <-.
    destruct (rx_warn _ _ _ _ _ _ _ E1) as (A & B). destruct (IH _ _ _ E2) as (C & D). rewrite warnings_app. destruct w.
    + destruct (A eq_refl) as (-> & ->). rewrite (C eq_refl). split; [reflexivity|lia].
    + split; [discriminate|]. destruct (B eq_refl) as [(-> & ->)|(-> & F)]; [lia|]. rewrite (C eq_refl). lia.
Qed.
Lemma msm123_iff ty : existsb (Z.eqb ty) msm123 = true <-> is_msm123 ty.
Proof.
  unfold is_msm123. split.
  - intros H. apply existsb_exists in H. destruct H as (x & I & Q). apply Z.eqb_eq in Q. subst x. unfold msm123 in I. cbn [In] in I.
    repeat (destruct I as [<- | I]; [cbn; lia|]). destruct I.
  - intros (A & B). assert (H : forallb (fun k => let ty := 1071 + Z.of_nat k in implb ((1 <=? ty mod 10) && (ty mod 10 <=? 3)) (existsb (Z.eqb ty) msm123)) (seq 0 53) = true) by (vm_compute; reflexivity).
    rewrite forallb_forall in H. specialize (H (Z.to_nat (ty - 1071)) ltac:(apply in_seq; lia)). cbv zeta in H. rewrite Z2Nat.id in H by lia.
    replace (1071 + (ty - 1071)) with ty in H by lia. destruct (Z.leb_spec 1 (ty mod 10)); [|lia]. destruct (Z.leb_spec (ty mod 10) 3); [|lia]. exact H.
Qed.

(** ** C72 *)
Lemma raw_be n v r : 0 <= n -> 0 <= v < 2 ^ n -> raw_u n (bits_be (Z.to_nat n) v ++ r) = DOk v r.
Proof.
  intros N V. unfold raw_u. assert (L : len (bits_be (Z.to_nat n) v) = n) by (rewrite len_bits_be; lia). rewrite len_app, L. pose proof (len_nonneg r).
  destruct (Z.ltb_spec (n + len r) n); [lia|]. rewrite take_app_eq by exact L. rewrite drop_app_eq by exact L. rewrite val_bits_be, Z2Nat.id, Z.mod_small by lia. reflexivity.
Qed.
Lemma bind_raw {B} n v fs r (f : Z -> dec B) : 0 <= n -> 0 <= v < 2 ^ n -> dbind (raw_u n) f (fields_bits ((n, v) :: fs) ++ r) = f v (fields_bits fs ++ r).
Proof. intros. unfold dbind. rewrite fields_bits_cons, <- app_assoc, raw_be by lia. reflexivity. Qed.
Fixpoint words_of (k : nat) (l : list bool) : list Z :=
  match k with O => [] | S k => if len l <=? 0 then [] else val_be (take 32 l) :: words_of k (drop 32 l) end.
Lemma raw_words_of k : forall l r, len l <= 32 * Z.of_nat k -> raw_words k (len l) (l ++ r) = DOk (words_of k l) r.
Proof.
  induction k as [|k IH]; intros l r L; pose proof (len_nonneg l).
  - assert (l = []) by (apply len_zero_nil; lia). subst. reflexivity.
  - cbn [raw_words words_of]. destruct (Z.leb_spec (len l) 0).
    + assert (l = []) by (apply len_zero_nil; lia). subst. reflexivity.
    + set (nx := if len l <? 32 then len l else 32). assert (N : nx = Z.min 32 (len l)) by (unfold nx; destruct (Z.ltb_spec (len l) 32); lia).
      assert (T : take 32 l = take nx l). { rewrite N. destruct (Z.min_spec 32 (len l)) as [[? ->]|[? ->]]; [reflexivity|]. rewrite !take_all by lia. reflexivity. }
      assert (D : drop 32 l = drop nx l). { rewrite N. destruct (Z.min_spec 32 (len l)) as [[? ->]|[? ->]]; [reflexivity|]. rewrite !drop_all by lia. reflexivity. }
      rewrite T, D. clear T D. unfold dbind at 1, raw_u. rewrite len_app. pose proof (len_nonneg r). destruct (Z.ltb_spec (len l + len r) nx); [lia|].
      assert (SP : l ++ r = take nx l ++ (drop nx l ++ r)) by (rewrite app_assoc, take_drop; reflexivity).
      assert (Lt : len (take nx l) = nx) by (rewrite len_take; lia).
      rewrite SP. rewrite take_app_eq, drop_app_eq by exact Lt.
      replace (len l - nx) with (len (drop nx l)) by (rewrite len_drop; lia). unfold dbind. rewrite IH by (rewrite len_drop; lia). reflexivity.
Qed.
Lemma len_words_of k : forall l, len l <= 32 * Z.of_nat k -> len (words_of k l) = (len l + 31) / 32.
Proof.
  induction k as [|k IH]; intros l L; pose proof (len_nonneg l).
  - assert (l = []) by (apply len_zero_nil; lia). subst. reflexivity.
  - cbn [words_of]. destruct (Z.leb_spec (len l) 0).
    + assert (l = []) by (apply len_zero_nil; lia). subst. reflexivity.
    + rewrite len_cons, IH by (rewrite len_drop; lia). rewrite len_drop. destruct (Z.le_gt_cases 32 (len l)).
      * replace (len l + 31) with ((len l - 1) + 1 * 32) by lia. rewrite Z.div_add by lia. replace (Z.max 0 32) with 32 by lia. rewrite Z.max_r by lia.
        replace (len l - 32 + 31) with (len l - 1) by lia. lia.
      * rewrite Z.max_l by lia. change ((0 + 31) / 32) with 0. change (1 + 0) with 1. apply Z.div_unique with (r := len l + 31 - 32); lia.
Qed.
Lemma words_bits k : forall l j, 0 <= j -> 32 * j <= len l -> j <= Z.of_nat k -> word_bits (take j (words_of k l)) = take (32 * j) l.
Proof.
  induction k as [|k IH]; intros l j J1 J2 J3.
  - replace j with 0 by lia. reflexivity.
  - destruct (Z.eq_dec j 0) as [-> | NZ]; [reflexivity|]. cbn [words_of]. destruct (Z.leb_spec (len l) 0); [lia|].
    rewrite take_cons by lia. cbn [word_bits flat_map]. fold (word_bits (take (j - 1) (words_of k (drop 32 l)))). rewrite IH; [|lia|rewrite len_drop; lia|lia].
    assert (L : length (take 32 l) = 32%nat) by (pose proof (len_take 32 l) as X; unfold len in X; unfold len in *; lia).
    pose proof (bits_be_val (take 32 l)) as X. rewrite L in X. rewrite X.
    replace (32 * j) with (32 + 32 * (j - 1)) by lia. rewrite take_add by lia. reflexivity.
Qed.
Definition frame_of (f : navframe) : ndf_frame := mkndf (f_sys f) (f_num f) (f_ext f) (f_sig f) (f_epoch f) (f_cont f) (len (f_bits f)) (words_of 128 (f_bits f)).
Lemma raw_frame_of f r : wf_nav f -> raw_frame (nav_bits f ++ r) = DOk (frame_of f) r.
Proof.
  unfold wf_nav, ubits. intros (A & B & C & D & E & F & L). unfold raw_frame, nav_bits. rewrite <- app_assoc. pose proof (len_nonneg (f_bits f)).
  repeat (rewrite bind_raw by lia; cbv beta). destruct (Z.ltb_spec 4096 (len (f_bits f))); [lia|]. cbn [fields_bits flat_map app].
  unfold dbind. rewrite raw_words_of by lia. reflexivity.
Qed.
Lemma raw_frames_of fs r : Forall wf_nav fs -> get_list raw_frame (length fs) (flat_map nav_bits fs ++ r) = DOk (map frame_of fs) r.
Proof.
  intros H. induction H as [|f fs W H IH]; [reflexivity|]. cbn [length get_list flat_map map]. rewrite <- app_assoc.
  unfold dbind at 1. rewrite raw_frame_of by exact W. unfold dbind. rewrite IH. reflexivity.
Qed.
Lemma decode_4075_of stn fs r : ubits 12 stn -> Forall wf_nav fs -> len fs <= 63 ->
  decode_4075 (msg4075_bits stn fs ++ r) = DOk (stn, map frame_of fs) r.
Proof.
  unfold ubits. intros U W L. unfold decode_4075, msg4075_bits. rewrite <- app_assoc. pose proof (len_nonneg fs).
  rewrite bind_raw by lia. cbn [Z.eqb Pos.eqb negb]. rewrite bind_raw by lia. rewrite bind_raw by lia. cbn [Z.eqb negb]. rewrite bind_raw by lia.
  destruct (Z.ltb_spec 63 (len fs)); [lia|]. cbn [fields_bits flat_map app]. rewrite to_nat_len. unfold dbind. rewrite raw_frames_of by exact W. reflexivity.
Qed.
(** a frame whose data fill eight words *)
Lemma intact_iff l : intact l = true <->
  (val_be (take 8 l) = 0x53 \/ val_be (take 8 l) = 0x9a \/ val_be (take 8 l) = 0xc6) /\ gf2_rem (take 250 l) = 0.
Proof. unfold intact. rewrite andb_true_iff, !orb_true_iff, !Z.eqb_eq. intuition lia. Qed.
Lemma ndf_frame_out stn f : ubits 12 stn -> wf_nav f -> (f_sys f = 3 -> 256 <= len (f_bits f) <= 288) -> ndf_out stn (frame_of f) = forwarded stn f.
Proof.
  intros U W S. unfold ndf_out, forwarded, frame_of. cbn [nf_sys nf_num nf_epoch nf_words].
  destruct (Z.eqb_spec (f_sys f) 3) as [E|E]; [|reflexivity]. specialize (S E). cbv zeta. cbn [andb].
  unfold wf_nav, ubits in W. unfold prn_in. cbn [Signals_model.first_prn Signals_model.prn_count].
  replace ((120 <=? f_num f + 120) && (f_num f + 120 <? 120 + 39)) with (f_num f <? 39) by lia.
  destruct (f_num f <? 39); cbn [negb andb]; [|reflexivity].
  pose proof (len_words_of 128 (f_bits f) ltac:(lia)) as LW.
  pose proof (words_bits 128 (f_bits f) 8 ltac:(lia) ltac:(lia) ltac:(lia)) as WB. change (32 * 8) with 256 in WB.
  assert (LW' : len (words_of 128 (f_bits f)) = 8 \/ len (words_of 128 (f_bits f)) = 9).
  { rewrite LW. assert (8 <= (len (f_bits f) + 31) / 32 < 10) by (split; [apply Z.div_le_lower_bound|apply Z.div_lt_upper_bound]; lia). lia. }
  assert (I : intact (f_bits f) = true <-> sbas_intact (words_of 128 (f_bits f))).
  { rewrite intact_iff. unfold sbas_intact. cbv zeta. rewrite WB, !take_take. change (Z.min 250 256) with 250. change (Z.min 8 250) with 8. reflexivity. }
  assert (Sb : forall a b, 0 <= a -> 0 <= b -> a + b <= 256 -> sub (take 256 (f_bits f)) a b = sub (f_bits f) a b).
  { intros a b Ha Hb Hab. unfold sub. replace 256 with (a + (256 - a)) by lia. rewrite drop_take by lia. rewrite take_take. f_equal. lia. }
  destruct (sbas_step (f_num f + 120) (f_epoch f) (words_of 128 (f_bits f))) as [o|] eqn:Q.
  - apply sbas_step_spec in Q. destruct Q as (_ & SI & ->). rewrite (proj2 I SI). rewrite WB, !Sb by lia.
    rewrite sender_back by exact U. rewrite (Z.add_comm 120). reflexivity.
  - destruct (intact (f_bits f)) eqn:X; [|reflexivity]. exfalso. assert (Y : sbas_step (f_num f + 120) (f_epoch f) (words_of 128 (f_bits f)) <> None); [|contradiction].
    intros N. pose proof (proj2 (sbas_step_spec (f_num f + 120) (f_epoch f) (words_of 128 (f_bits f)) _) (conj LW' (conj (proj1 I eq_refl) eq_refl))) as Z1. congruence.
Qed.
Lemma bits_first p n fs r : bytes p -> 0 <= n < 4096 -> bits_of_bytes p = fields_bits ((12, n) :: fs) ++ r -> 2 <= len p /\ frame_type p = n.
Proof.
  intros B H E. split.
  - pose proof (f_equal len E) as L. rewrite fields_bits_cons, !len_app, len_bits_be, len_bits_of_bytes in L. pose proof (len_nonneg (fields_bits fs)). pose proof (len_nonneg r). lia.
  - exact (Ssr_proofs.message_number_bits p n fs B H (ex_intro _ r E)).
Qed.
