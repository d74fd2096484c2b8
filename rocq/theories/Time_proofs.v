From Verif Require Import Base Time_model.

Lemma gps_valid_spec t : gps_time_valid t = true <-> 0 <= wn t /\ 0 <= tow t < WEEK_MS.
Proof. unfold gps_time_valid. rewrite !andb_true_iff, Z.leb_le, Z.leb_le, Z.ltb_lt. tauto. Qed.
Lemma known_diff a b : 0 <= wn a -> 0 <= wn b -> gpsdifftime a b = (wn a * WEEK_MS + tow a) - (wn b * WEEK_MS + tow b).
Proof.
  intros Ha Hb. unfold gpsdifftime, WN_UNKNOWN. destruct (Z.eqb_spec (wn a) (-1)); [lia|]. destruct (Z.eqb_spec (wn b) (-1)); [lia|].
  cbn [orb]. ring.
Qed.
(** absolute time in ms *)
Definition abs_ms (t : gtime) : Z := wn t * WEEK_MS + tow t.

Lemma gps_message_time_spec tow_ms rover : 0 <= tow_ms < WEEK_MS -> gps_time_valid rover = true -> 0 < wn rover < INT16_MAX ->
  exists t, compute_gps_message_time tow_ms rover = Some t /\ tow t = tow_ms /\ gps_time_valid t = true /\
    2 * Z.abs (abs_ms t - abs_ms rover) <= WEEK_MS.
Proof.
  intros Ht Hr Hw. unfold compute_gps_message_time. destruct (Z.leb_spec WEEK_MS tow_ms); [lia|]. rewrite Hr. cbn [negb].
  apply gps_valid_spec in Hr. unfold abs_ms, INT16_MAX, WEEK_MS in *.
  rewrite known_diff by (cbn; lia). cbn [wn tow].
  destruct (Z.eqb_spec (wn rover) 32767); [lia|]. destruct (Z.eqb_spec (wn rover) 0); [lia|]. cbn [negb]. rewrite !andb_true_r.
  change (604800000 / 2) with 302400000. unfold WEEK_MS.
  destruct (Z.ltb_spec (wn rover * 604800000 + tow_ms - (wn rover * 604800000 + tow rover)) (Z.opp 302400000)) as [C1|C1];
    [|destruct (Z.ltb_spec 302400000 (wn rover * 604800000 + tow_ms - (wn rover * 604800000 + tow rover))) as [C2|C2]];
    match goal with |- context [if gps_time_valid ?t then _ else _] => assert (V : gps_time_valid t = true) by (apply gps_valid_spec; unfold WEEK_MS; cbn [wn tow]; lia); rewrite V; exists t end;
    (split; [reflexivity|]); (split; [reflexivity|]); (split; [exact V|]); unfold abs_ms; cbn [wn tow]; unfold WEEK_MS in *; lia.
Qed.
Lemma gps_message_time_valid tow_ms rover t : compute_gps_message_time tow_ms rover = Some t -> t = T_UNKNOWN \/ gps_time_valid t = true /\ tow t = tow_ms.
Proof.
  unfold compute_gps_message_time. destruct (WEEK_MS <=? tow_ms); [intros E; injection E as <-; auto|].
  destruct (negb (gps_time_valid rover)); [discriminate|].
  match goal with |- (if gps_time_valid ?t then _ else _) = _ -> _ => destruct (gps_time_valid t) eqn:V end; [|discriminate].
  intros E. injection E as <-. right. split; [exact V|].
  destruct (_ && _); [reflexivity|]. destruct (_ && _); reflexivity.
Qed.

Lemma bds_tow t : 0 <= t < WEEK_MS ->
  0 <= beidou_tow_to_gps_tow t < WEEK_MS /\ beidou_tow_to_gps_tow t = (t + 14000) mod WEEK_MS.
Proof.
  unfold beidou_tow_to_gps_tow, WEEK_MS. intros H. rewrite (Z.mod_small (t + 14000)) by lia.
  destruct (Z.leb_spec 604800000 (t + 14000)); (split; [lia|]).
  - apply Z.mod_unique with (q := 1); lia.
  - symmetry. apply Z.mod_small. lia.
Qed.
Lemma gps_tow_bds t : 0 <= t < WEEK_MS ->
  0 <= gps_tow_to_beidou_tow t < WEEK_MS /\ gps_tow_to_beidou_tow t = (t - 14000) mod WEEK_MS.
Proof.
  unfold gps_tow_to_beidou_tow, WEEK_MS. intros H.
  destruct (Z.ltb_spec t 14000); rewrite Z.mod_small by lia; (split; [lia|]).
  - apply Z.mod_unique with (q := -1); lia.
  - symmetry. apply Z.mod_small. lia.
Qed.

(** GLONASS *)
Lemma normalize_ok t : 0 <= wn t -> - WEEK_MS <= tow t < 2 * WEEK_MS -> 1 <= wn t < INT16_MAX ->
  exists t', normalize_gps_time_safe t = Some t' /\ abs_ms t' = abs_ms t /\ 0 <= wn t' /\ 0 <= tow t' < WEEK_MS /\ wn t - 1 <= wn t' <= wn t + 1.
Proof.
  intros H0 Ht Hw. unfold normalize_gps_time_safe. unfold WEEK_MS, INT16_MAX in *.
  assert (-1 <= tow t / 604800000 <= 1).
  { split; [apply Z.div_le_lower_bound; lia|]. assert (tow t / 604800000 < 2); [apply Z.div_lt_upper_bound; lia|lia]. }
  destruct (Z.ltb_spec (wn t) 0); [lia|]. destruct (Z.ltb_spec (wn t + tow t / 604800000) 0); [lia|].
  destruct (Z.ltb_spec 32767 (wn t + tow t / 604800000)); [lia|]. cbn [orb]. eexists. split; [reflexivity|].
  unfold abs_ms, WEEK_MS. cbn [wn tow]. pose proof (Z.div_mod (tow t) 604800000 ltac:(lia)). pose proof (Z.mod_pos_bound (tow t) 604800000 ltac:(lia)).
  split; [lia|]. split; [lia|]. split; [lia|lia].
Qed.
Lemma abs_mod_day a b w w' : a = b + w * WEEK_MS -> w' = w -> a mod DAY_MS = b mod DAY_MS.
Proof. intros -> _. unfold WEEK_MS, DAY_MS. replace (b + w * 604800000) with (b + (7 * w) * 86400000) by ring. apply Z.mod_add. lia. Qed.
Lemma glo_time_spec tod rover leap : 0 <= tod < DAY_MS + 1000 -> gps_time_valid rover = true -> 2 < wn rover < INT16_MAX - 2 -> 0 <= leap <= 3600 ->
  exists t, compute_glo_time tod rover (Some leap) = (true, Some t) /\ gps_time_valid t = true /\
    2 * Z.abs (abs_ms t - abs_ms rover) <= DAY_MS /\ (abs_ms t - (tod - 3 * HOUR_MS + leap * 1000)) mod DAY_MS = 0.
Proof.
  intros Ht Hr Hw Hl. unfold compute_glo_time. destruct (Z.leb_spec (DAY_MS + 1000) tod); [lia|]. rewrite Hr. cbn [negb].
  apply gps_valid_spec in Hr. destruct rover as [w s]. cbn [wn tow] in *.
  set (D := Z.quot s DAY_MS). assert (HD : D * DAY_MS <= s < (D + 1) * DAY_MS /\ 0 <= D <= 6).
  { unfold D, DAY_MS, WEEK_MS in *. Z.quot_rem_to_equations. lia. }
  set (x := D * DAY_MS + (tod - 3 * HOUR_MS) + leap * 1000).
  assert (Hx : - WEEK_MS < x < 2 * WEEK_MS) by (unfold x, DAY_MS, HOUR_MS, WEEK_MS in *; lia).
  assert (Hb : exists t0, borrow_weeks w x = t0 /\ abs_ms t0 = w * WEEK_MS + x /\ w - 1 <= wn t0 <= w /\ 0 <= tow t0 < 2 * WEEK_MS).
  { unfold borrow_weeks. destruct (Z.ltb_spec x 0); eexists; (split; [reflexivity|]); unfold abs_ms; cbn [wn tow]; unfold WEEK_MS, DAY_MS in *; Z.div_mod_to_equations; lia. }
  destruct Hb as (t0 & -> & Ha & Hw0 & Ht0).
  destruct (normalize_ok t0) as (t1 & -> & A1 & W1 & T1 & R1); [unfold INT16_MAX, WEEK_MS in *; lia..|].
  rewrite known_diff by (cbn [wn]; lia). fold (abs_ms t1). cbn [wn tow]. rewrite A1, Ha. change (abs_ms {| wn := w; tow := s |}) with (w * WEEK_MS + s).
  set (d := w * WEEK_MS + x - (w * WEEK_MS + s)).
  assert (Hd : d = x - s) by (unfold d; ring).
  assert (Hdr : - (27 * HOUR_MS) < d < 2 * DAY_MS - 18 * HOUR_MS + leap * 1000) by (unfold x, HOUR_MS, DAY_MS in *; lia).
  destruct (Z.ltb_spec (DAY_MS / 2) (Z.abs d)) as [Hbig|Hsmall].
  - set (t2 := mkt (wn t1) (tow t1 + (if d <? 0 then DAY_MS else - DAY_MS))).
    assert (A2 : abs_ms t2 = w * WEEK_MS + x + (if d <? 0 then DAY_MS else - DAY_MS)) by (unfold t2, abs_ms in *; cbn [wn tow]; lia).
    destruct (normalize_ok t2) as (t3 & -> & A3 & W3 & T3 & R3);
      [unfold t2, INT16_MAX, WEEK_MS, DAY_MS in *; cbn [wn tow]; destruct (d <? 0); lia..|].
    exists t3. split; [reflexivity|]. split; [apply gps_valid_spec; lia|]. rewrite A3, A2.
    change (DAY_MS / 2) with 43200000 in Hbig. split.
    + unfold DAY_MS, HOUR_MS in *. destruct (Z.ltb_spec d 0); lia.
    + replace (w * WEEK_MS + x + (if d <? 0 then DAY_MS else - DAY_MS) - (tod - 3 * HOUR_MS + leap * 1000))
        with ((7 * w + D + (if d <? 0 then 1 else -1)) * DAY_MS) by (unfold x, WEEK_MS, DAY_MS; destruct (d <? 0); ring).
      apply Z.mod_mul. unfold DAY_MS. lia.
  - exists t1. split; [reflexivity|]. split; [apply gps_valid_spec; lia|]. rewrite A1, Ha.
    change (DAY_MS / 2) with 43200000 in Hsmall. split; [unfold DAY_MS; lia|].
    replace (w * WEEK_MS + x - (tod - 3 * HOUR_MS + leap * 1000)) with ((7 * w + D) * DAY_MS) by (unfold x, WEEK_MS, DAY_MS; ring).
    apply Z.mod_mul. unfold DAY_MS. lia.
Qed.
Lemma glo_tow_spec g leap : 0 <= g < WEEK_MS -> 0 <= leap <= 3600 ->
  compute_glo_tow_ms g (Some leap) = Some ((g + 3 * HOUR_MS - leap * 1000) mod WEEK_MS).
Proof.
  intros Hg Hl. unfold compute_glo_tow_ms. unfold WEEK_MS, HOUR_MS in *. set (t := g + 3 * 3600000 - leap * 1000).
  assert (0 <= t < 604800000 + 3 * 3600000 \/ t < 0) by lia.
  destruct (Z.ltb_spec t 0); [lia|]. destruct (Z.leb_spec 604800000 t).
  - destruct (Z.leb_spec 0 (t - 604800000)); [|lia]. destruct (Z.ltb_spec (t - 604800000) (604800000 + 1000)); [|lia]. cbn [andb]. f_equal.
    rewrite (Z.mod_small (t - 604800000)) by lia. apply Z.mod_unique with (q := 1); lia.
  - destruct (Z.leb_spec 0 t); [|lia]. destruct (Z.ltb_spec t (604800000 + 1000)); [|lia]. reflexivity.
Qed.
Lemma mod_week_day a : (a mod WEEK_MS) mod DAY_MS = a mod DAY_MS.
Proof.
  unfold WEEK_MS, DAY_MS. rewrite (Z.div_mod a 604800000) at 2 by lia.
  replace (604800000 * (a / 604800000) + a mod 604800000) with (a mod 604800000 + (7 * (a / 604800000)) * 86400000) by ring.
  rewrite Z.mod_add by lia. reflexivity.
Qed.
Lemma glo_tod_spec g leap : 0 <= g < WEEK_MS -> 0 <= leap <= 3600 ->
  compute_glo_tod_ms g (Some leap) = Some ((g + 3 * HOUR_MS - leap * 1000) mod DAY_MS).
Proof. intros Hg Hl. unfold compute_glo_tod_ms. rewrite glo_tow_spec by assumption. rewrite mod_week_day. reflexivity. Qed.
Lemma glo_inverse tod rover leap t : 0 <= tod < DAY_MS -> gps_time_valid rover = true -> 2 < wn rover < INT16_MAX - 2 -> 0 <= leap <= 3600 ->
  compute_glo_time tod rover (Some leap) = (true, Some t) -> compute_glo_tod_ms (tow t) (Some leap) = Some tod.
Proof.
  intros Ht Hr Hw Hl E. destruct (glo_time_spec tod rover leap ltac:(unfold DAY_MS in *; lia) Hr Hw Hl) as (t' & E' & V & _ & M).
  rewrite E in E'. injection E' as <-. apply gps_valid_spec in V. rewrite glo_tod_spec by tauto. f_equal.
  apply Z.mod_divide in M; [|unfold DAY_MS; lia]. destruct M as [q M]. unfold abs_ms in M.
  replace (tow t + 3 * HOUR_MS - leap * 1000) with (tod + (q - 7 * wn t) * DAY_MS) by (unfold WEEK_MS, DAY_MS in *; lia).
  rewrite Z.mod_add by (unfold DAY_MS; lia). apply Z.mod_small. exact Ht.
Qed.
