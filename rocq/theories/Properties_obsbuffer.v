(** C17, C18, C23 (RTCM-to-SBP observation epochs and gating) and C52 (forwarded text). *)
From Verif Require Import Base Bits_model Time_model Time_proofs ObsBuffer_model ObsBuffer_spec ObsBuffer_proofs Log1029_model Log1029_proofs.

(** ** C17 *)
Theorem C17_epoch_split : forall (obs other_out aux : Type) (s : rstate obs aux), len (r_buf s) <= 210 ->
  exists s' l, send_observations (other_out := other_out) s = Some (s', l) /\ r_buf s' = [] /\
    epoch_messages (r_sender s) (r_obs_wn s) (r_obs_tow s) (r_buf s) l /\ carried l = r_buf s.
Proof. intros obs oo aux s H. destruct (send_ok (other_out := oo) s H) as (o & E & M & C & _). exists (set_buf s 0 0 []), o. auto. Qed.
(** more than 210 is an assertion failure; the buffer never gets there (next theorem) *)
Theorem C17_buffer_bounded : forall (obs other_out aux : Type) ld md utc ot a l (s' : rstate obs aux) (o : list (out obs other_out)),
  unsigned_fields ld md -> times_valid l -> decode_all ld md utc ot l (r_init a) = Some (s', o) -> len (r_buf s') <= 210.
Proof.
  intros obs oo aux ld md utc ot a l s' o U V E.
  destruct (history_ok ld md utc ot (fun _ _ _ => True) l U V) with (s := r_init (obs := obs) a) as (s2 & o2 & E2 & (G & _) & _).
  - intros. apply Forall_forall. auto.
  - apply init_good.
  - rewrite E in E2. injection E2 as <- <-. exact G.
Qed.
Example C17_example : exists l, send_observations (other_out := unit) (mkr T_UNKNOWN None 61568 T_UNKNOWN T_UNKNOWN T_UNKNOWN 2100 5000 (repeat 7 30) tt) =
  Some (mkr T_UNKNOWN None 61568 T_UNKNOWN T_UNKNOWN T_UNKNOWN 0 0 [] tt, l) /\
  l = [OObs 61568 2100 5000 0x30 (repeat 7 14); OObs 61568 2100 5000 0x31 (repeat 7 14); OObs 61568 2100 5000 0x32 [7; 7]].
Proof. eexists. split; reflexivity. Qed.

(** ** C18.  [l]: any sequence of payloads, each with the reference time available when it arrives. *)
(** no input makes the converter abort, and every observation in every emitted message belongs, by time of week and sender, to the
    message's header, and was in a received payload *)
Theorem C18_no_mixing : forall (obs other_out aux : Type) ld md utc ot a l, unsigned_fields ld md -> times_valid l ->
  exists (s' : rstate obs aux) (o : list (out obs other_out)), decode_all ld md utc ot l (r_init a) = Some (s', o) /\
  forall sender w t n os x, In (OObs sender w t n os) o -> In x os ->
    exists ref p, In (Some ref, p) l /\ belongs ld md utc ref p t sender /\ In x (observations ld md p).
Proof.
  intros obs oo aux ld md utc ot a l U V.
  set (P := fun t sd x => exists ref p, In (Some ref, p) l /\ belongs ld md utc ref p t sd /\ In x (observations ld md p)).
  destruct (history_ok ld md utc ot P l U V) with (s := r_init (obs := obs) a) as (s2 & o2 & E2 & _ & G & _).
  - intros ref p t sd Hp Hb. apply Forall_forall. intros x Hx. exists ref, p. auto.
  - apply init_good.
  - exists s2, o2. split; [exact E2|]. intros sender w t n os x Ho Hx. unfold good_out in G. rewrite Forall_forall in G. specialize (G _ Ho). cbn in G. rewrite Forall_forall in G. exact (G x Hx).
Qed.
(** nothing is invented, duplicated or reordered *)
Theorem C18_order_preserved : forall (obs other_out aux : Type) ld md utc ot a l (s' : rstate obs aux) (o : list (out obs other_out)),
  unsigned_fields ld md -> times_valid l -> decode_all ld md utc ot l (r_init a) = Some (s', o) ->
  subseq (carried o ++ r_buf s') (concat (map (fun x => observations ld md (snd x)) l)).
Proof.
  intros obs oo aux ld md utc ot a l s' o U V E.
  destruct (history_ok ld md utc ot (fun _ _ _ => True) l U V) with (s := r_init (obs := obs) a) as (s2 & o2 & E2 & _ & _ & Q).
  - intros. apply Forall_forall. auto.
  - apply init_good.
  - rewrite E in E2. injection E2 as <- <-. exact Q.
Qed.
(** an MSM message with a resolvable time is taken completely (or the user is told the epoch is full), as long as it does not find a
    buffer left over from more than 5 s ago *)
Theorem C18_msm_observations_kept : forall (obs other_out aux : Type) ld md utc ot ref p (s : rstate obs aux) c m t w,
  2 <= len p -> len (r_buf s) <= 210 -> kind_of (message_type p) = KMsm c -> md (message_type p) p = Some m ->
  msm_time (other_out := other_out) c (m_tow_ms m) (set_leap (set_time s ref) (Some (utc ref))) = Some (Some t, w) ->
  gps_time_valid (r_last_gps s) = true \/ tow t <> 0 ->
  r_buf s = [] \/ (gps_time_valid (r_last_msm s) = true /\ gpsdifftime t (r_last_msm s) < 5000) ->
  exists s' (o : list (out obs other_out)), decode_payload ld md utc ot (Some ref) p s = Some (s', o) /\
    (carried o ++ r_buf s' = r_buf s ++ m_cands m \/
     In OFull o /\ exists c1 c2, m_cands m = c1 ++ c2 /\ c2 <> [] /\ carried o ++ r_buf s' = r_buf s ++ c1).
Proof.
  intros obs oo aux ld md utc ot ref p s c m t w Hp L K D T V R.
  destruct (msm_kept ld md utc ot ref p s c m t w Hp L K D T V) as (s' & o & E & c1 & c2 & S & Q & N).
  { unfold msm_restart, is_msm_active. destruct R as [->|[-> R]]; [apply andb_false_r|]. cbn [andb]. unfold MSM_TIMEOUT_MS. destruct (Z.ltb_spec (gpsdifftime t (r_last_msm s)) 5000); [reflexivity|lia]. }
  exists s', o. split; [exact E|]. destruct c2 as [|x c2].
  - left. rewrite app_nil_r in S. subst c1. exact Q.
  - right. split; [apply N; discriminate|]. exists c1, (x :: c2). split; [exact S|]. split; [discriminate|exact Q].
Qed.
(** a legacy GPS message newer than the previous one, with no MSM stream active, likewise *)
Theorem C18_legacy_observations_kept : forall (obs other_out aux : Type) ld md utc ot ref p (s : rstate obs aux) m t,
  2 <= len p -> len (r_buf s) <= 210 -> kind_of (message_type p) = KGps -> ld (message_type p) p = Some m ->
  compute_gps_message_time (l_tow_ms m) ref = Some t -> gps_time_valid t = true ->
  gps_time_valid (r_last_msm s) = false \/ 5000 <= gpsdifftime t (r_last_msm s) ->
  gps_time_valid (r_last_gps s) = false \/ 1 <= gpsdifftime t (r_last_gps s) ->
  exists s' (o : list (out obs other_out)), decode_payload ld md utc ot (Some ref) p s = Some (s', o) /\
    (carried o ++ r_buf s' = r_buf s ++ somes (l_cands m) \/
     In OFull o /\ exists c1 c2, somes (l_cands m) = c1 ++ c2 /\ c2 <> [] /\ carried o ++ r_buf s' = r_buf s ++ c1).
Proof.
  intros obs oo aux ld md utc ot ref p s m t Hp L K D T V A N.
  destruct (legacy_gps_kept ld md utc ot ref p s m t Hp L K D T V) as (s' & o & E & c1 & c2 & S & Q & Nf); [|exact N|].
  { unfold is_msm_active, MSM_TIMEOUT_MS. destruct A as [->|A]; [reflexivity|]. destruct (Z.ltb_spec (gpsdifftime t (r_last_msm s)) 5000); [lia|apply andb_false_r]. }
  exists s', o. split; [exact E|]. destruct c2 as [|x c2].
  - left. rewrite app_nil_r in S. rewrite S. exact Q.
  - right. split; [apply Nf; discriminate|]. exists c1, (x :: c2). split; [exact S|]. split; [discriminate|exact Q].
Qed.
(** an MSM payload whose "multiple message" bit is 0 ends the epoch: nothing stays buffered *)
Theorem C18_last_message_flushes : forall (obs other_out aux : Type) ld md utc ot ref p (s s' : rstate obs aux) (o : list (out obs other_out)),
  1070 <= message_type p <= 1229 -> 7 <= len p -> getbitu p 54 1 = 0 ->
  decode_payload ld md utc ot (Some ref) p s = Some (s', o) -> r_buf s' = [].
Proof.
  intros obs oo aux ld md utc ot ref p s s' o M Hp B E. unfold decode_payload in E. destruct (Z.ltb_spec (len p) 2); [lia|].
  match type of E with match ?r with None => _ | Some _ => _ end = _ => destruct r as [[s1 o1]|]; [|discriminate] end.
  replace ((1070 <=? message_type p) && (message_type p <=? 1229) && (54 <=? len p * 8) && (getbitu p 54 1 =? 0)) with true in E.
  2:{ symmetry. rewrite !andb_true_iff, !Z.leb_le, Z.eqb_eq. lia. }
  destruct (send_observations s1) as [[s2 o2]|] eqn:S; [|discriminate]. injection E as <- <-. unfold send_observations in S. destruct (_ && _); [|discriminate]. injection S as <- <-. reflexivity.
Qed.

(** concrete decoders for the examples: byte 2 = time of week in s, byte 3 = station, byte 4 = sync, bytes 7.. = observations *)
Definition toy_legacy (ty : Z) (p : list Z) : option (legacy_msg Z) := Some (mklegacy (1000 * Z.abs (znth 0 2 p)) (znth 0 3 p) (znth 0 4 p) (map Some (drop 7 p))).
Definition toy_msm (ty : Z) (p : list Z) : option (msm_msg Z) := Some (mkmsm (1000 * Z.abs (znth 0 2 p)) (znth 0 3 p) (drop 7 p)).
Definition toy_other (ty : Z) (p : list Z) (s : rstate Z unit) : unit * list unit := (tt, []).
Definition toy := decode_all toy_legacy toy_msm (fun _ => 18) toy_other.
(** 1074 = 0x432 (GPS MSM4): first byte 0x43, second 0x20; 1124 = 0x464; 1004 = 0x3EC; 1071 = 0x42F *)
Definition gps_msm (tow stn last : Z) (os : list Z) := [0x43; 0x20; tow; stn; 0; 0; (if last =? 1 then 0 else 2)] ++ os.
Definition gps_legacy (tow stn sync : Z) (os : list Z) := [0x3E; 0xC0; tow; stn; sync; 0; 0] ++ os.
Example C18_example : option_map snd (toy [(Some (mkt 2100 9000), gps_msm 10 1 0 [1; 2]); (Some (mkt 2100 9000), gps_msm 10 1 1 [3]);
    (Some (mkt 2100 9000), gps_msm 11 1 0 [4]); (Some (mkt 2100 9000), gps_msm 12 1 1 [5])] (r_init tt)) =
  Some [OObs 61569 2100 10000 0x10 [1; 2; 3]; ONotEmpty; OObs 61569 2100 11000 0x10 [4]; OObs 61569 2100 12000 0x10 [5]].
Proof. reflexivity. Qed.
Example toy_unsigned : unsigned_fields toy_legacy toy_msm /\ times_valid [(Some (mkt 2100 9000), gps_msm 10 1 0 [1; 2])].
Proof.
  assert (A : forall x, 0 <= 1000 * Z.abs x) by (intros x; apply Z.mul_nonneg_nonneg; [discriminate|apply Z.abs_nonneg]).
  split; [split; intros ty p m E; [replace (l_tow_ms m) with (1000 * Z.abs (znth 0 2 p))|replace (m_tow_ms m) with (1000 * Z.abs (znth 0 2 p))]; try apply A;
    unfold toy_legacy, toy_msm in E; inversion E; reflexivity|]. intros ref p [E|[]]. injection E as <- <-. reflexivity.
Qed.
(** finding: an unfinished MSM epoch is thrown away, not sent, when the next MSM message is 5 s or more later *)
Theorem C18_refuted_incomplete_epoch_sent : option_map snd (toy [(Some (mkt 2100 9000), gps_msm 10 1 0 [1; 2]); (Some (mkt 2100 9000), gps_msm 15 1 1 [3])] (r_init tt)) =
  Some [OObs 61569 2100 15000 0x10 [3]].
Proof. reflexivity. Qed.
(** finding: only the time of week is compared, so observations exactly a week apart end up in one epoch *)
Theorem C18_refuted_same_week : option_map snd (toy [(Some (mkt 2100 9000), gps_legacy 10 1 1 [1]); (Some (mkt 2101 9000), gps_legacy 10 1 0 [2])] (r_init tt)) =
  Some [OObs 61569 2101 10000 0x10 [1; 2]].
Proof. reflexivity. Qed.
(** finding: stations whose ids differ only in bit 7 get the same SBP sender, so their observations are merged *)
Theorem C18_refuted_station_separation : (forall stn, 0 <= stn < 4096 -> sender_of stn = sender_of (Z.lor stn 128)) /\
  option_map snd (toy [(Some (mkt 2100 9000), gps_msm 10 1 0 [1]); (Some (mkt 2100 9000), gps_msm 10 129 1 [2])] (r_init tt)) = Some [OObs 61569 2100 10000 0x10 [1; 2]].
Proof.
  split; [|reflexivity]. intros stn _. unfold sender_of. rewrite <- Z.lor_assoc. reflexivity.
Qed.
(** otherwise distinct *)
Theorem C18_stations_distinct_partial : forall a b, 0 <= a < 4096 -> 0 <= b < 4096 -> sender_of a = sender_of b -> Z.lor a 128 = Z.lor b 128.
Proof.
  intros a b Ha Hb E. unfold sender_of in E. apply Z.bits_inj'. intros n Hn. pose proof (f_equal (fun x => Z.testbit x n) E) as Q. cbv beta in Q.
  rewrite !Z.lor_spec in *. destruct (Z.ltb_spec n 12).
  - assert (Z.testbit 128 n = Z.testbit 0xF080 n); [|congruence].
    assert (n = 0 \/ n = 1 \/ n = 2 \/ n = 3 \/ n = 4 \/ n = 5 \/ n = 6 \/ n = 7 \/ n = 8 \/ n = 9 \/ n = 10 \/ n = 11) as C by lia.
    repeat (destruct C as [->|C]; [reflexivity|]). subst n. reflexivity.
  - rewrite !(testbit_small _ n 12) by lia. reflexivity.
Qed.

(** ** C23 *)
Theorem C23_gated_messages_have_no_effect : forall (obs other_out aux : Type) ld md utc ot p (s : rstate obs aux),
  ~ In (message_type p) [1005; 1006; 1029; 1071; 1072; 1073; 1081; 1082; 1083; 1091; 1092; 1093; 1101; 1102; 1103; 1111; 1112; 1113; 1121; 1122; 1123; 4062; 4075; 1019; 1042; 1045; 1046] ->
  exists s', decode_payload (other_out := other_out) ld md utc ot None p s = Some (s', []) /\ r_buf s' = r_buf s /\ r_sender s' = r_sender s /\
    r_obs_tow s' = r_obs_tow s /\ r_obs_wn s' = r_obs_wn s /\ r_aux s' = r_aux s /\ r_leap s' = r_leap s /\ r_last_gps s' = r_last_gps s /\ r_last_glo s' = r_last_glo s /\ r_last_msm s' = r_last_msm s.
Proof.
  intros obs oo aux ld md utc ot p s N. apply gate. exact N.
Qed.
(** the ones let through never touch the observation buffer other than by sending it *)
Theorem C23_unsolved_never_buffers : forall (obs other_out aux : Type) ld md utc ot p (s s' : rstate obs aux) (o : list (out obs other_out)),
  len (r_buf s) <= 210 -> decode_payload ld md utc ot None p s = Some (s', o) -> carried o ++ r_buf s' = r_buf s.
Proof.
  intros obs oo aux ld md utc ot p s s' o L E. unfold decode_payload in E. destruct (len p <? 2); [injection E as <- <-; reflexivity|].
  destruct (existsb (Z.eqb (message_type p)) ungated) eqn:G; cbn [negb] in E; [|injection E as <- <-; reflexivity].
  assert (K : kind_of (message_type p) = KOther).
  { apply existsb_exists in G. destruct G as (x & Hx & Q). apply Z.eqb_eq in Q. rewrite Q. unfold ungated in Hx. cbn [In] in Hx. repeat (destruct Hx as [<-|Hx]; [reflexivity|]). destruct Hx. }
  rewrite K in E. destruct (ot _ _ _) as [a os]. destruct (_ && _).
  - destruct (send_ok (other_out := oo) (set_aux (set_time s (mkt (-1) (-1000))) a) L) as (o2 & E2 & _ & C & _). rewrite E2 in E. injection E as <- <-.
    rewrite carried_app, carried_other, C. cbn. apply app_nil_r.
  - injection E as <- <-. rewrite carried_other. reflexivity.
Qed.
(** finding: an MSM1-3 message, let through only to warn about it, still ends an "epoch": before any time is known an observation message
    with week 0, time of week 0 and no observations goes out *)
Theorem C23_refuted_no_observation_message_before_time : option_map snd (toy [(None, [0x42; 0xF0; 0; 0; 0; 0; 0])] (r_init tt)) = Some [OObs 0 0 0 0x10 []].
Proof. reflexivity. Qed.
Example C23_example : message_type (gps_msm 10 1 1 [3]) = 1074 /\ option_map snd (toy [(None, gps_msm 10 1 1 [3])] (r_init tt)) = Some [].
Proof. split; reflexivity. Qed.

(** ** C52 *)
Theorem C52_log_is_bounded_prefix : forall text, len text <= 255 -> exists n, log_1029 text = Some (RTCM_LOG_PREAMBLE ++ take n text) /\
  len (RTCM_LOG_PREAMBLE ++ take n text) <= 254 /\ 0 <= n <= len text /\ (len text < 248 -> n = len text) /\ (248 <= len text -> 247 <= n <= 248).
Proof.
  intros text H. pose proof (len_nonneg text). destruct (log_1029_form text H) as (n & E & Hn). exists n. split; [exact E|]. rewrite len_app, len_take. change (len RTCM_LOG_PREAMBLE) with 6.
  destruct (Z.ltb_spec (len text) 248); [lia|]. destruct (_ || _); lia.
Qed.
(** texts made of one- and two-unit characters are cut between characters *)
Theorem C52_two_unit_characters_whole_partial : forall cs, Forall char2 cs -> len (concat cs) <= 255 ->
  exists kept rest, cs = kept ++ rest /\ log_1029 (concat cs) = Some (RTCM_LOG_PREAMBLE ++ concat kept).
Proof. exact two_unit_text. Qed.
(** finding: a three-unit character (here U+20AC, E2 82 AC) can be cut after its second unit *)
Theorem C52_refuted_characters_whole : exists cs, Forall (fun c => c = [0x61] \/ c = [0xE2; 0x82; 0xAC]) cs /\ len (concat cs) <= 255 /\
  forall kept rest, cs = kept ++ rest -> log_1029 (concat cs) <> Some (RTCM_LOG_PREAMBLE ++ concat kept).
Proof.
  exists (repeat [0x61] 246 ++ [[0xE2; 0x82; 0xAC]]). split; [|split].
  - apply Forall_app. split; [apply Forall_forall; intros x Hx; apply repeat_spec in Hx; auto|constructor; [right; reflexivity|constructor]].
  - vm_compute. discriminate.
  - intros kept rest E H. assert (L : len (RTCM_LOG_PREAMBLE ++ concat kept) = 254).
    { assert (X : option_map len (log_1029 (concat (repeat [0x61] 246 ++ [[0xE2; 0x82; 0xAC]]))) = Some 254) by (vm_compute; reflexivity). rewrite H in X. unfold option_map in X. congruence. }
    rewrite len_app in L. change (len RTCM_LOG_PREAMBLE) with 6 in L.
    assert (Lk : length kept = 246%nat \/ length kept = 247%nat \/ (length kept < 246)%nat \/ (247 < length kept)%nat) by lia.
    pose proof (f_equal (@length _) E) as LE. rewrite !app_length, repeat_length in LE. cbn in LE.
    pose proof (f_equal (firstn (length kept)) E) as FE. rewrite (firstn_app _ kept rest), Nat.sub_diag, firstn_O, app_nil_r, firstn_all in FE.
    destruct Lk as [K|[K|[K|K]]]; [| | |lia].
    + rewrite K in FE. vm_compute in FE. subst kept. vm_compute in L. discriminate.
    + rewrite K in FE. vm_compute in FE. subst kept. vm_compute in L. discriminate.
    + assert (CL : forall k : list (list Z), Forall (fun c => len c = 1) k -> len (concat k) = Z.of_nat (length k)).
      { intros k F. induction F as [|c k Hc F IH]; [reflexivity|]. cbn [concat length]. rewrite len_app, IH, Hc. lia. }
      rewrite CL in L; [lia|]. rewrite <- FE, firstn_app, repeat_length. replace (length kept - 246)%nat with 0%nat by lia. rewrite firstn_O, app_nil_r.
      apply Forall_forall. intros c Hc. assert (Hc' : In c (repeat [97] 246)) by (rewrite <- (firstn_skipn (length kept) (repeat [97] 246)); apply in_or_app; left; exact Hc).
      apply repeat_spec in Hc'. subst c. reflexivity.
Qed.
Example C52_example : log_1029 [72; 105] = Some [82; 84; 67; 77; 58; 32; 72; 105] /\ Forall char2 [[0x41]; [0xC3; 0xA9]].
Proof. split; [reflexivity|]. constructor; [left; exists 0x41; split; [reflexivity|lia]|]. constructor; [right; exists 0xC3, 0xA9; split; [reflexivity|lia]|constructor]. Qed.
Print Assumptions C17_epoch_split.
Print Assumptions C17_buffer_bounded.
Print Assumptions C18_no_mixing.
Print Assumptions C18_order_preserved.
Print Assumptions C18_msm_observations_kept.
Print Assumptions C18_legacy_observations_kept.
Print Assumptions C18_last_message_flushes.
Print Assumptions C18_refuted_incomplete_epoch_sent.
Print Assumptions C18_refuted_same_week.
Print Assumptions C18_refuted_station_separation.
Print Assumptions C18_stations_distinct_partial.
Print Assumptions C23_gated_messages_have_no_effect.
Print Assumptions C23_unsolved_never_buffers.
Print Assumptions C23_refuted_no_observation_message_before_time.
Print Assumptions C52_log_is_bounded_prefix.
Print Assumptions C52_two_unit_characters_whole_partial.
Print Assumptions C52_refuted_characters_whole.
