(** Properties C19-C22: resolution of times of week / day and the shared time truth. *)
From Verif Require Import Base Time_model Time_proofs TimeTruth_model TimeTruth_proofs.

(** ** Specification vocabulary: absolute times on the GPS time scale, in ms since week 0 *)
Definition ms_of (t : gtime) : Z := wn t * 604800000 + tow t.
(** a week number the receiver can meet: not the first or last representable ones, where the code refuses to roll *)
Definition inner_week (t : gtime) : Prop := 2 < wn t < 32765.
Definition known_time (t : gtime) : Prop := 0 <= wn t /\ 0 <= tow t < 604800000.

(** ** C19 *)
Theorem C19_bds_gps_inverse : forall t, 0 <= t < 604800000 ->
  gps_tow_to_beidou_tow (beidou_tow_to_gps_tow t) = t /\ beidou_tow_to_gps_tow (gps_tow_to_beidou_tow t) = t.
Proof.
  intros t H. destruct (bds_tow t H) as [R1 E1]. destruct (gps_tow_bds t H) as [R2 E2].
  destruct (bds_tow _ R2) as [_ E3]. destruct (gps_tow_bds _ R1) as [_ E4]. rewrite E3, E4, E1, E2.
  split; [rewrite Zminus_mod_idemp_l; replace (t + 14000 - 14000) with t by ring
         |rewrite Zplus_mod_idemp_l; replace (t - 14000 + 14000) with t by ring]; apply Z.mod_small; exact H.
Qed.
Theorem C19_bds_gps_offset : forall t, 0 <= t < 604800000 ->
  0 <= beidou_tow_to_gps_tow t < 604800000 /\ 0 <= gps_tow_to_beidou_tow t < 604800000 /\
  (beidou_tow_to_gps_tow t - t) mod 604800000 = 14000 /\ (t - gps_tow_to_beidou_tow t) mod 604800000 = 14000.
Proof.
  intros t H. destruct (bds_tow t H) as [R1 E1]. destruct (gps_tow_bds t H) as [R2 E2]. split; [exact R1|]. split; [exact R2|].
  rewrite E1, E2. unfold WEEK_MS. rewrite Zminus_mod_idemp_l, Zminus_mod_idemp_r. split.
  - replace (t + 14000 - t) with 14000 by ring. reflexivity.
  - replace (t - (t - 14000)) with 14000 by ring. reflexivity.
Qed.
Example C19_rollover : beidou_tow_to_gps_tow 604799999 = 13999 /\ gps_tow_to_beidou_tow 13999 = 604799999.
Proof. split; reflexivity. Qed.

(** ** C20 *)
Theorem C20_message_time_nearest : forall tow_ms rover, 0 <= tow_ms < 604800000 -> known_time rover -> inner_week rover ->
  exists t, compute_gps_message_time tow_ms rover = Some t /\ tow t = tow_ms /\ known_time t /\
    2 * Z.abs (ms_of t - ms_of rover) <= 604800000 /\
    (forall u, tow u = tow_ms -> 2 * Z.abs (ms_of u - ms_of rover) < 604800000 -> u = t).
Proof.
  intros s r Hs Hr Hw. destruct (gps_message_time_spec s r Hs) as (t & E & T & V & D).
  { apply gps_valid_spec. exact Hr. } { unfold inner_week, INT16_MAX in *. lia. }
  apply gps_valid_spec in V. exists t. split; [exact E|]. split; [exact T|]. split; [exact V|]. split; [exact D|].
  intros u U Du. destruct u as [uw us], t as [tw ts], r as [rw rs]. unfold ms_of, abs_ms, WEEK_MS in *. cbn [wn tow] in *. subst us ts. f_equal. lia.
Qed.
(** a time of week of a week or more is not a time: the result is the explicit unknown time *)
Theorem C20_invalid_tow_unknown : forall tow_ms rover, 604800000 <= tow_ms -> compute_gps_message_time tow_ms rover = Some (mkt (-1) 0).
Proof. intros s r H. unfold compute_gps_message_time, WEEK_MS. destruct (Z.leb_spec 604800000 s); [reflexivity|lia]. Qed.
(** whatever the reference (unless the call aborts), a known result has the requested time of week *)
Theorem C20_result_has_tow : forall tow_ms rover t, 0 <= tow_ms < 604800000 -> compute_gps_message_time tow_ms rover = Some t -> known_time t /\ tow t = tow_ms.
Proof.
  intros s r t Hs E. unfold compute_gps_message_time, WEEK_MS in E. destruct (Z.leb_spec 604800000 s) as [?|_]; [lia|].
  destruct (negb _); [discriminate|].
  match type of E with (if gps_time_valid ?x then _ else _) = _ => destruct (gps_time_valid x) eqn:V; [|discriminate] end.
  injection E as <-. apply gps_valid_spec in V. split; [exact V|]. destruct (_ && _); [reflexivity|]. destruct (_ && _); reflexivity.
Qed.
(** finding: an unknown reference is not rejected, it trips an assertion (process abort) *)
Theorem C20_refuted_unknown_reference_aborts : forall tow_ms rover, 0 <= tow_ms < 604800000 -> ~ known_time rover -> compute_gps_message_time tow_ms rover = None.
Proof.
  intros s r Hs Hr. unfold compute_gps_message_time, WEEK_MS. destruct (Z.leb_spec 604800000 s); [lia|].
  destruct (gps_time_valid r) eqn:V; [|reflexivity]. apply gps_valid_spec in V. contradiction.
Qed.
Example C20_rollover : compute_gps_message_time 1000 (mkt 2000 604799000) = Some (mkt 2001 1000) /\ compute_gps_message_time 604799000 (mkt 2001 1000) = Some (mkt 2000 604799000).
Proof. split; reflexivity. Qed.

(** ** C21 *)
(** [glo_instant tod leap x]: x is a GPS instant (ms) at which GLONASS time of day (Moscow time, UTC+3h) reads tod *)
Definition glo_instant (tod leap x : Z) : Prop := (x - leap * 1000 + 3 * 3600 * 1000 - tod) mod 86400000 = 0.
Theorem C21_glo_time_nearest : forall tod rover leap, 0 <= tod < 86401000 -> known_time rover -> inner_week rover -> 0 <= leap <= 3600 ->
  exists t, compute_glo_time tod rover (Some leap) = (true, Some t) /\ known_time t /\ glo_instant tod leap (ms_of t) /\
    2 * Z.abs (ms_of t - ms_of rover) <= 86400000 /\
    (forall x, glo_instant tod leap x -> 2 * Z.abs (x - ms_of rover) < 86400000 -> x = ms_of t).
Proof.
  intros tod r leap Ht Hr Hw Hl. destruct (glo_time_spec tod r leap) as (t & E & V & D & M); try assumption.
  { apply gps_valid_spec; exact Hr. }
  apply gps_valid_spec in V. exists t. split; [exact E|]. split; [exact V|].
  unfold glo_instant. change (ms_of t) with (abs_ms t). change (ms_of r) with (abs_ms r). unfold DAY_MS, HOUR_MS in *.
  split; [rewrite <- M; f_equal; ring|]. split; [exact D|].
  intros x Hx Dx. apply Z.mod_divide in M, Hx; try lia. destruct M as [q M], Hx as [q' Hx]. lia.
Qed.
Theorem C21_invalid_tod_rejected : forall tod rover leap, 86401000 <= tod -> fst (compute_glo_time tod rover leap) = false.
Proof.
  intros tod r [l|] H; [|reflexivity]. unfold compute_glo_time, DAY_MS. destruct (Z.leb_spec (86400000 + 1000) tod); [reflexivity|lia].
Qed.
Theorem C21_unknown_leap_rejected : forall tod rover, fst (compute_glo_time tod rover None) = false.
Proof. reflexivity. Qed.
Theorem C21_unknown_reference_rejected : forall tod rover leap, ~ known_time rover -> fst (compute_glo_time tod rover leap) = false.
Proof.
  intros tod r [l|] H; [|reflexivity]. unfold compute_glo_time. destruct (_ <=? _); [reflexivity|].
  destruct (gps_time_valid r) eqn:V; [|reflexivity]. apply gps_valid_spec in V. contradiction.
Qed.
(** sbp2rtcm direction: the time of day written for an observation is the one whose instants include it; so the two directions invert each other *)
Theorem C21_encoded_tod : forall gps_tow leap, 0 <= gps_tow < 604800000 -> 0 <= leap <= 3600 ->
  exists tod, compute_glo_tod_ms gps_tow (Some leap) = Some tod /\ 0 <= tod < 86400000 /\ glo_instant tod leap gps_tow.
Proof.
  intros g l Hg Hl. eexists. split; [apply glo_tod_spec; assumption|]. unfold DAY_MS, HOUR_MS. split; [apply Z.mod_pos_bound; lia|].
  unfold glo_instant. rewrite Zminus_mod_idemp_r. replace (g - l * 1000 + 3 * 3600 * 1000 - (g + 3 * 3600000 - l * 1000)) with 0 by ring. reflexivity.
Qed.
Theorem C21_glo_inverse : forall tod rover leap t, 0 <= tod < 86400000 -> known_time rover -> inner_week rover -> 0 <= leap <= 3600 ->
  compute_glo_time tod rover (Some leap) = (true, Some t) -> compute_glo_tod_ms (tow t) (Some leap) = Some tod.
Proof. intros tod r leap t Ht Hr Hw Hl. apply glo_inverse; try assumption. apply gps_valid_spec. exact Hr. Qed.
Theorem C21_gps_inverse : forall tod rover leap t, known_time t -> inner_week rover -> known_time rover -> 0 <= leap <= 3600 ->
  2 * Z.abs (ms_of t - ms_of rover) < 86400000 ->
  compute_glo_tod_ms (tow t) (Some leap) = Some tod -> compute_glo_time tod rover (Some leap) = (true, Some t).
Proof.
  intros tod r leap t Ht Hw Hr Hl D E. destruct Ht as [Ht1 Ht2]. destruct (C21_encoded_tod (tow t) leap Ht2 Hl) as (tod' & E' & R & G).
  rewrite E in E'. injection E' as <-. destruct (C21_glo_time_nearest tod r leap ltac:(lia) Hr Hw Hl) as (t' & E2 & K & _ & _ & U).
  rewrite E2. f_equal. f_equal. specialize (U (ms_of t)). symmetry.
  assert (X : ms_of t = ms_of t').
  { apply U; [|exact D]. unfold glo_instant in *. apply Z.mod_divide in G; [|lia]. destruct G as [q G]. apply Z.mod_divide; [lia|]. exists (q + 7 * wn t). unfold ms_of. lia. }
  destruct t as [a b], t' as [a' b']. destruct K as [K1 K2]. unfold ms_of in X. cbn [wn tow] in *. assert (a = a') by lia. subst a'. f_equal. lia.
Qed.
(** finding: with leap seconds unknown the encoder side does not refuse, it produces 2^32-1, which is written as the time field *)
Theorem C21_refuted_unknown_leap_encoded : forall gps_tow, compute_glo_tod_ms gps_tow None = Some 4294967295.
Proof. reflexivity. Qed.
(** finding: at exactly midnight Moscow time the 15-minute slot is 96, i.e. 24:00, although t_b is defined on 0..95 *)
Theorem C21_refuted_midnight_slot : forall leap, 0 <= leap <= 3600 -> glo_t_b (75600 + leap) leap = 96.
Proof.
  intros l H. unfold glo_t_b. replace (75600 + l - l) with 75600 by ring. reflexivity.
Qed.
Theorem C21_glo_slot_partial : forall gps_tow leap, 0 <= leap <= gps_tow -> gps_tow < 604800 -> (gps_tow - leap + 10800) mod 86400 <> 0 ->
  glo_t_b gps_tow leap = (gps_tow - leap + 10800) mod 86400 / 900 /\ 0 <= glo_t_b gps_tow leap < 96.
Proof.
  intros g l H1 H2 N. unfold glo_t_b. rewrite Z.rem_mod_nonneg by lia. pose proof (Z.mod_pos_bound (g - l) 86400 ltac:(lia)) as B.
  set (d := (g - l) mod 86400) in *.
  assert (E : (if 86400 <? d + 3 * 3600 then d + 3 * 3600 - 86400 else d + 3 * 3600) = (g - l + 10800) mod 86400).
  { assert (E : (g - l + 10800) mod 86400 = (d + 10800) mod 86400) by (unfold d; rewrite Zplus_mod_idemp_l; reflexivity).
    rewrite E in *. destruct (Z.ltb_spec 86400 (d + 3 * 3600)).
    - apply Z.mod_unique with (q := 1); lia.
    - destruct (Z.eq_dec (d + 10800) 86400) as [Q|Q]; [rewrite Q in N; exfalso; apply N; reflexivity|]. symmetry. apply Z.mod_small. lia. }
  rewrite E. pose proof (Z.mod_pos_bound (g - l + 10800) 86400 ltac:(lia)) as B2. rewrite Z.quot_div_nonneg by lia.
  assert (0 <= (g - l + 10800) mod 86400 / 900 < 96) by (split; [apply Z.div_pos; lia|apply Z.div_lt_upper_bound; lia]).
  rewrite Z.mod_small by lia. split; [reflexivity|assumption].
Qed.
(** BDS ephemeris reference times: written and read back, the (week, second) pair is the original, except in the very second the
    BDS week starts *)
Theorem C19_bds_week_round_trip : forall w s, 1357 <= w < 9548 -> 0 <= s < 604800 -> s <> 14 -> (s - 14) mod 8 = 0 ->
  let '(bw, bt) := get_bds_wn_tow w s 8 in 0 <= bt < 75600 /\ time_from_bds bw bt 8 = (w, s).
Proof.
  intros w s Hw Hs N M. unfold get_bds_wn_tow, time_from_bds. apply Z.mod_divide in M; [|lia]. destruct M as [q M].
  destruct (Z.ltb_spec 14 s).
  - replace (s - 14) with (q * 8) by lia. rewrite Z.div_mul by lia. split; [lia|]. rewrite Z.mod_small by lia.
    replace (q * 8 + 14) with s by lia. rewrite Z.div_small, Z.mod_small by lia. f_equal. lia.
  - replace (s - 14 + 604800) with ((q + 75600) * 8) by lia. rewrite Z.div_mul by lia. split; [lia|]. rewrite Z.mod_small by lia.
    replace ((q + 75600) * 8 + 14) with (s + 1 * 604800) by lia. rewrite Z.div_add, Z.mod_add, Z.div_small, Z.mod_small by lia. f_equal. lia.
Qed.
(** finding: at BDS second 0 the written time of week is a whole week (out of its range) *)
Theorem C19_refuted_bds_week_start : forall w, get_bds_wn_tow w 14 8 = ((w - 1356 - 1) mod 8192, 75600).
Proof. reflexivity. Qed.
Example C21_example : compute_glo_time 10800000 (mkt 2000 18000) (Some 18) = (true, Some (mkt 2000 18000)) /\ compute_glo_time 1000 (mkt 2000 18000) (Some 18) = (true, Some (mkt 1999 (604800000 - 10800000 + 19000))).
Proof. split; reflexivity. Qed.

(** ** C22.  A configuration is the shared cell and the calls in progress; a schedule is any order of their atomic actions. *)
Definition calls_from (ref : Z) (calls : list (source * gt)) (sched : list nat) : config :=
  run ref (tt_init, map (fun '(s, t) => Start s t) calls) sched.
Definition solved (c : config) : Prop := t_solved (fst c) = true.
(** the time held, in 2^-33 s since week 0 *)
Definition truth (c : config) : Z := t_wn (fst c) * (604800 * 2 ^ 33) + t_tow (fst c).
Definition submitted (t : gt) : Z := a_wn t * (604800 * 2 ^ 33) + a_tow t.
(** a call's time as the cell represents it (float time of week) *)
Definition as_float (t : gt) : Z := a_wn t * (604800 * 2 ^ 33) + round24 (a_tow t).
(** an update the converter should accept as a source of time: an ephemeris time, valid, not before the build's reference week *)
Definition admissible (ref : Z) (src : source) (t : gt) : Prop :=
  src <> OTHER_SOURCE /\ (0 <= a_wn t /\ 0 <= a_tow t < 604800 * 2 ^ 33) /\ ref <= a_wn t.
Lemma admissible_iff ref src t : admissible ref src t <-> acceptable ref src t.
Proof. unfold admissible, acceptable, gt_valid, WEEK_T, TICKS. rewrite !andb_true_iff, !Z.leb_le, Z.ltb_lt. tauto. Qed.

Theorem C22_monotone : forall ref calls s1 s2, solved (calls_from ref calls s1) ->
  solved (calls_from ref calls (s1 ++ s2)) /\ truth (calls_from ref calls s1) <= truth (calls_from ref calls (s1 ++ s2)).
Proof.
  intros ref calls s1 s2 H. unfold calls_from. rewrite run_app. destruct (run_inv ref s1 _ (start_inv ref calls)) as [I _].
  destruct (run_inv ref s2 _ I) as [_ L]. apply L. exact H.
Qed.
Theorem C22_sound : forall ref calls sched, let c := calls_from ref calls sched in
  (~ solved c /\ fst c = mktt (-1) (-1) false) \/
  solved c /\ exists src t, In (src, t) calls /\ admissible ref src t /\ t_wn (fst c) = a_wn t /\ t_tow (fst c) = round24 (a_tow t).
Proof.
  intros ref calls sched c. destruct (run_sound ref calls sched) as [[E|(src & t & I & A & E)] _].
  - left. unfold c, calls_from, solved. unfold start in E. rewrite E. split; [discriminate|reflexivity].
  - right. unfold c, calls_from, solved. unfold start in E. rewrite E. split; [reflexivity|]. exists src, t. split; [exact I|].
    split; [apply admissible_iff; exact A|]. split; reflexivity.
Qed.
(** a call that reported success was, at some moment, the value everybody saw *)
Theorem C22_success_was_visible : forall ref calls sched src t, In (Done src t true) (snd (calls_from ref calls sched)) ->
  admissible ref src t /\ exists s1 s2, sched = s1 ++ s2 /\ fst (calls_from ref calls s1) = mktt (a_wn t) (round24 (a_tow t)) true.
Proof.
  intros ref calls sched src t H. split.
  - apply admissible_iff. destruct (run_inv ref sched _ (start_inv ref calls)) as [[_ F] _]. rewrite Forall_forall in F. exact (proj2 (F _ H) eq_refl).
  - destruct (run_sound ref calls sched) as [_ V]. exact (V _ _ H).
Qed.
(** no admissible update is lost: once its call has returned - whatever it returned - the truth is at least as late as its time *)
Theorem C22_no_lost_update : forall ref calls sched src t r, In (Done src t r) (snd (calls_from ref calls sched)) -> admissible ref src t ->
  solved (calls_from ref calls sched) /\ Z.min (submitted t) (as_float t) <= truth (calls_from ref calls sched).
Proof. intros ref calls sched src t r H A. apply admissible_iff in A. exact (run_lower ref calls sched src t r H A). Qed.
(** each action either leaves the cell as it was, or belongs to an admissible call with a strictly later time *)
Theorem C22_only_newer_admissible_updates_write : forall ref calls sched i,
  let c := calls_from ref calls sched in let c' := calls_from ref calls (sched ++ [i]) in
  fst c' <> fst c -> exists src t, nth_error calls i = Some (src, t) /\ admissible ref src t /\ (solved c -> truth c < submitted t) /\
    fst c' = mktt (a_wn t) (round24 (a_tow t)) true /\ nth_error (snd c') i = Some (Done src t true).
Proof.
  intros ref calls sched i c c' N. unfold c', c, calls_from in *. rewrite run_app in *. fold (start calls) in *.
  set (k := run ref (tt_init, start calls) sched) in *. change (run ref k [i]) with (cstep ref k i) in *.
  destruct (run_inv ref sched _ (start_inv ref calls)) as [I _]. fold k in I.
  destruct (cstep_effect ref k i I) as [[E _]|(src & t & Ha & A & E & Hd & D & _)]; [contradiction|].
  exists src, t. split; [unfold k in Ha; rewrite run_args in Ha; cbn [snd] in Ha; rewrite start_args in Ha; exact Ha|].
  split; [apply admissible_iff; exact A|]. split; [exact D|]. split; [exact E|exact Hd].
Qed.
(** whole seconds - every broadcast ephemeris time - are held exactly *)
Theorem C22_whole_seconds_exact : forall w s, 0 <= s < 604800 -> as_float (mkgt w (s * 2 ^ 33)) = submitted (mkgt w (s * 2 ^ 33)).
Proof. intros w s H. unfold as_float, submitted. cbn [a_wn a_tow]. change (2 ^ 33) with TICKS at 2. rewrite round24_seconds by exact H. reflexivity. Qed.
(** without interference a call runs to completion in two actions and does what a sequential update should do *)
Theorem C22_sequential_update : forall ref shared src t,
  let '(shared', r) := update_alone ref shared src t in
  (r = true <-> admissible ref src t /\ (t_solved shared = true -> t_wn shared * (604800 * 2 ^ 33) + t_tow shared < submitted t)) /\
  shared' = (if r then mktt (a_wn t) (round24 (a_tow t)) true else shared).
Proof.
  intros ref sh src t. unfold update_alone. cbn [act]. unfold admissible, submitted.
  destruct (gt_valid t) eqn:V; unfold gt_valid in V; cbn [negb].
  2:{ split; [|reflexivity]. split; [discriminate|]. intros [(_ & H & _) _]. exfalso.
      rewrite <- not_true_iff_false in V. apply V. rewrite !andb_true_iff, !Z.leb_le, Z.ltb_lt. exact (conj (conj (proj1 H) (proj1 (proj2 H))) (proj2 (proj2 H))). }
  rewrite !andb_true_iff, !Z.leb_le, Z.ltb_lt in V. destruct (Z.ltb_spec (a_wn t) ref) as [L|L].
  { split; [|reflexivity]. split; [discriminate|]. intros [(_ & _ & H) _]. lia. }
  destruct (next src t sh) as [n|] eqn:N.
  - replace (tt_eqb sh sh) with true by (destruct sh; unfold tt_eqb; cbn; rewrite !Z.eqb_refl, Bool.eqb_reflx; reflexivity).
    destruct (next_some _ _ _ _ N) as (S & -> & D). split; [|reflexivity]. split; [|reflexivity]. intros _.
    split; [split; [exact S|]; split; [|exact L]; unfold WEEK_T, TICKS in V; tauto|]. intros S'. specialize (D S'). unfold tdiff, WEEK_T, TICKS in D. clear - D. lia.
  - split; [|reflexivity]. split; [discriminate|]. intros [(S & _) H]. exfalso. unfold next in N.
    destruct (t_solved sh); [specialize (H eq_refl)|destruct src; congruence].
    destruct (Z.leb_spec (tdiff t sh) 0) as [Q|Q]; [|destruct src; congruence]. unfold tdiff, WEEK_T, TICKS in Q. clear - H Q. lia.
Qed.
Theorem C22_unhealthy_or_other_messages_ignored : forall ref shared h w s,
  update_from_sbp ref shared None = (shared, false) /\ (h <> 0 -> update_from_sbp ref shared (Some (h, w, s)) = (shared, false)).
Proof. intros. split; [reflexivity|]. intros H. unfold update_from_sbp. destruct (Z.eqb_spec h 0); [contradiction|reflexivity]. Qed.
(** finding: a valid fractional time in the last 1/64 s of a week is stored as tow = 604800.0, which no later consumer accepts as a valid time *)
Theorem C22_refuted_stored_time_valid : exists src t, admissible 2000 src t /\ fst (calls_from 2000 [(src, t)] [0%nat; 0%nat]) = mktt 2000 (604800 * 2 ^ 33) true.
Proof.
  exists EPH_GPS, (mkgt 2000 (604800 * 2 ^ 33 - 1)). split; [|reflexivity]. split; [discriminate|]. cbn [a_wn a_tow]. split; [|reflexivity]. split; [discriminate|]. split; [vm_compute; discriminate|reflexivity].
Qed.
(** two threads racing: the older one loses its exchange, retries, and gives up *)
Example C22_race : let c := calls_from 2000 [(EPH_GPS, mkgt 2100 (7 * 2 ^ 33)); (EPH_GAL, mkgt 2100 (9 * 2 ^ 33))] [0; 1; 1; 0; 0]%nat in
  fst c = mktt 2100 (9 * 2 ^ 33) true /\ snd c = [Done EPH_GPS (mkgt 2100 (7 * 2 ^ 33)) false; Done EPH_GAL (mkgt 2100 (9 * 2 ^ 33)) true].
Proof. split; reflexivity. Qed.
Print Assumptions C19_bds_gps_inverse.
Print Assumptions C19_bds_gps_offset.
Print Assumptions C20_message_time_nearest.
Print Assumptions C20_invalid_tow_unknown.
Print Assumptions C20_result_has_tow.
Print Assumptions C20_refuted_unknown_reference_aborts.
Print Assumptions C21_glo_time_nearest.
Print Assumptions C21_invalid_tod_rejected.
Print Assumptions C21_unknown_leap_rejected.
Print Assumptions C21_unknown_reference_rejected.
Print Assumptions C21_encoded_tod.
Print Assumptions C21_glo_inverse.
Print Assumptions C21_gps_inverse.
Print Assumptions C21_refuted_unknown_leap_encoded.
Print Assumptions C21_refuted_midnight_slot.
Print Assumptions C21_glo_slot_partial.
Print Assumptions C19_bds_week_round_trip.
Print Assumptions C19_refuted_bds_week_start.
Print Assumptions C22_monotone.
Print Assumptions C22_sound.
Print Assumptions C22_success_was_visible.
Print Assumptions C22_no_lost_update.
Print Assumptions C22_only_newer_admissible_updates_write.
Print Assumptions C22_whole_seconds_exact.
Print Assumptions C22_sequential_update.
Print Assumptions C22_unhealthy_or_other_messages_ignored.
Print Assumptions C22_refuted_stored_time_valid.
