(** C27 (signal and satellite numbering), C51 (GLONASS channels), C53 (construction of an MSM header). *)
From Verif Require Import Base RtcmLegacy_model RtcmMsm_model RtcmMsm_spec RtcmMsm_proofs Signals_model Signals_spec Signals_proofs.

(** Every supported signal of the standard's tables has a unique position 0..31 in the signal mask; decoding the position gives the
    signal back; any other code (of whatever constellation) is reported as 32 = not found. *)
Theorem C27_code_to_signal_id c k : c <> cINVALID -> k <> CODE_INVALID ->
  (forall j, sig_pos c k j -> code_to_msm_signal_id k c = Some j /\ 0 <= j < 32 /\ get_msm_code c (j + 1) = k) /\
  ((forall j, ~ sig_pos c k j) -> code_to_msm_signal_id k c = Some 32).
Proof.
  intros Hc Hk. split.
  - intros j S. destruct (sig_id_of _ _ _ S) as (E & R & _). repeat split; try lia; [exact E|].
    pose proof (table_complete _ _ _ (in_or_app _ z_tracking _ (or_introl S))) as (T & _). exact T.
  - intros N. destruct (signal_id_spec c k Hc Hk) as (i & E & R & [[L I]|[L I]]).
    + exfalso. exact (N i I).
    + rewrite E. f_equal. exact L.
Qed.
(** Decoding: a signal id yields a code exactly when the standard's table (or the two Z-tracking aliases) lists it, for every integer id. *)
Theorem C27_signal_id_to_code c id k : k <> CODE_INVALID ->
  get_msm_code c id = k <-> In (c, id, k) (standard_signals ++ z_tracking).
Proof.
  intros Hk. split.
  - intros E. pose proof (table_sound c id) as T. rewrite E in T. exact (T Hk).
  - intros I. exact (proj1 (table_complete _ _ _ I)).
Qed.
(** No code belongs to two constellations or two positions. *)
Theorem C27_numbering_injective c j k c' j' k' : sig_pos c k j -> sig_pos c' k' j' -> (k = k' <-> c = c' /\ j = j').
Proof.
  intros H1 H2. destruct (standard_functional _ _ _ _ _ _ H1 H2) as [A B]. split.
  - intros E. destruct (A E). split; [assumption|lia].
  - intros [-> ->]. apply B; [reflexivity|lia].
Qed.
(** Relative to a message header: the code of its s-th signal maps back to s, unless the signal is one of the two aliased ids. *)
Theorem C27_signal_index_round_trip h s k : len (sig_mask h) = 32 -> msm_signal_to_code h s = Some k -> k <> CODE_INVALID ->
  exists p, nth_set (sig_mask h) (s + 1) p /\
    (In (to_constellation (mh_num h), p + 1, k) z_tracking \/ code_to_msm_signal_index h k = Some s).
Proof.
  intros L H Hk. destruct (signal_index_round_trip h s k L H Hk) as (p & N & A & B). exists p. split; [exact N|].
  destruct (existsb (triple_eqb (to_constellation (mh_num h), p + 1, k)) standard_signals) eqn:E.
  - right. apply A. apply in_triples. exact E.
  - left. apply B. intros S. assert (X : existsb (triple_eqb (to_constellation (mh_num h), p + 1, k)) standard_signals = true).
    { apply existsb_exists. exists (to_constellation (mh_num h), p + 1, k). split; [exact S | apply triple_eqb_spec; reflexivity]. }
    congruence.
Qed.
Theorem C27_signal_code_round_trip h k j : len (sig_mask h) = 32 -> sig_pos (to_constellation (mh_num h)) k j ->
  znth false j (sig_mask h) = true ->
  exists s, code_to_msm_signal_index h k = Some s /\ 0 <= s < set_count (sig_mask h) /\ msm_signal_to_code h s = Some k.
Proof. exact (index_to_signal h k j). Qed.
(** Satellites: index -> PRN -> index and PRN -> index -> PRN; every PRN handed out is one of the constellation's. *)
Theorem C27_sat_index_round_trip h s prn : len (sat_mask h) = 64 -> msm_sat_to_prn h s = Some prn -> prn <> PRN_INVALID ->
  prn_to_msm_sat_index h prn = Some s /\
  first_prn (to_constellation (mh_num h)) <= prn < first_prn (to_constellation (mh_num h)) + prn_count (to_constellation (mh_num h)) /\
  nth_set (sat_mask h) (s + 1) (prn - first_prn (to_constellation (mh_num h))).
Proof.
  intros L H N. destruct (sat_index_round_trip h s prn L H N) as (A & B & C). apply prn_valid_spec in B. destruct B as [_ [B _]]. auto.
Qed.
Theorem C27_sat_prn_round_trip h prn i : len (sat_mask h) = 64 -> to_constellation (mh_num h) <> cINVALID ->
  sat_pos (to_constellation (mh_num h)) prn i -> znth false i (sat_mask h) = true ->
  exists s, prn_to_msm_sat_index h prn = Some s /\ 0 <= s < set_count (sat_mask h) /\ msm_sat_to_prn h s = Some prn.
Proof. exact (index_to_sat h prn i). Qed.
(** a satellite outside the constellation's range has no id (the caller's assertion fails rather than writing elsewhere) *)
Theorem C27_foreign_prn_rejected prn c : ~ (first_prn c <= prn < first_prn c + prn_count c) -> prn_to_msm_sat_id prn c = None.
Proof.
  intros H. unfold prn_to_msm_sat_id. destruct (prn_valid c prn) eqn:V; [|reflexivity]. apply prn_valid_spec in V. destruct V as [_ [V _]]. contradiction.
Qed.
(** Message numbers: constellation and type are recovered from the number, for MSM1..MSM7. *)
Theorem C27_message_number c ty : c <> cINVALID -> 1 <= ty <= 7 ->
  to_constellation (to_msm_msg_num c ty) = c /\ to_msm_type (to_msm_msg_num c ty) = ty.
Proof.
  intros Hc Ht. assert (C : ty = 1 \/ ty = 2 \/ ty = 3 \/ ty = 4 \/ ty = 5 \/ ty = 6 \/ ty = 7) by lia.
  destruct C as [->|[->|[->|[->|[->|[->| ->]]]]]]; destruct c; try contradiction; split; reflexivity.
Qed.
(** The bijection is broken for GPS Z-tracking: signal ids 4 (1W) and 10 (2W) decode to L1P / L2P, which are re-encoded as 3 (1P) and 9 (2P). *)
Theorem C27_gps_z_tracking_refuted :
  get_msm_code cGPS 4 = GPS_L1P /\ code_to_msm_signal_id GPS_L1P cGPS = Some 2 /\
  get_msm_code cGPS 10 = GPS_L2P /\ code_to_msm_signal_id GPS_L2P cGPS = Some 8.
Proof. repeat split. Qed.

(** ** C53 *)
(** Which constellation a message number belongs to: the RTCM message lists (MSM, SSR orbit/clock/bias groups, SSR phase bias) *)
Definition message_groups : list (cons * list Z) :=
  [(cGPS,  [1071; 1072; 1073; 1074; 1075; 1076; 1077; 1057; 1058; 1059; 1060; 1061; 1062; 1265]);
   (cGLO,  [1081; 1082; 1083; 1084; 1085; 1086; 1087; 1063; 1064; 1065; 1066; 1067; 1068; 1266]);
   (cGAL,  [1091; 1092; 1093; 1094; 1095; 1096; 1097; 1240; 1241; 1242; 1243; 1244; 1245; 1267]);
   (cSBAS, [1101; 1102; 1103; 1104; 1105; 1106; 1107; 1269]);
   (cQZS,  [1111; 1112; 1113; 1114; 1115; 1116; 1117; 1246; 1247; 1248; 1249; 1250; 1251; 1268]);
   (cBDS,  [1121; 1122; 1123; 1124; 1125; 1126; 1127; 1258; 1259; 1260; 1261; 1262; 1263; 1270])].
Theorem C53_message_constellation : forall n,
  (forall c l, In (c, l) message_groups -> In n l -> to_constellation n = c) /\
  ((forall c l, In (c, l) message_groups -> ~ In n l) -> to_constellation n = cINVALID).
Proof.
  intros n. split.
  - intros c l H. cbn [In message_groups] in H. repeat (destruct H as [H|H]; [injection H as <- <-; clear; intros I; cbn [In] in I; repeat (destruct I as [<-|I]; [reflexivity|]); destruct I|]). destruct H.
  - intros H. assert (F : forall l, In l (map snd message_groups) -> ~ In n l). { intros l I. apply in_map_iff in I. destruct I as ((c, l') & <- & I). exact (H c l' I). } clear H.
    assert (F1 := F _ (or_introl eq_refl)). assert (F2 := F _ (or_intror (or_introl eq_refl))). assert (F3 := F _ (or_intror (or_intror (or_introl eq_refl)))). assert (F4 := F _ (or_intror (or_intror (or_intror (or_introl eq_refl))))).
    assert (F5 := F _ (or_intror (or_intror (or_intror (or_intror (or_introl eq_refl)))))). assert (F6 := F _ (or_intror (or_intror (or_intror (or_intror (or_intror (or_introl eq_refl))))))). clear F.
    cbn [In snd] in F1, F2, F3, F4, F5, F6. unfold to_constellation, between.
    replace ((1071 <=? n) && (n <=? 1077) || (1057 <=? n) && (n <=? 1062) || (n =? 1265)) with false by (clear - F1; lia).
    replace ((1081 <=? n) && (n <=? 1087) || (1063 <=? n) && (n <=? 1068) || (n =? 1266)) with false by (clear - F2; lia).
    replace ((1091 <=? n) && (n <=? 1097) || (1240 <=? n) && (n <=? 1245) || (n =? 1267)) with false by (clear - F3; lia).
    replace ((1101 <=? n) && (n <=? 1107) || (n =? 1269)) with false by (clear - F4; lia).
    replace ((1111 <=? n) && (n <=? 1117) || (1246 <=? n) && (n <=? 1251) || (n =? 1268)) with false by (clear - F5; lia).
    replace ((1121 <=? n) && (n <=? 1127) || (1258 <=? n) && (n <=? 1263) || (n =? 1270)) with false by (clear - F6; lia). reflexivity.
Qed.
(** Adding a supported signal of a valid satellite either puts both into the masks -- and nothing else -- keeping the grid within 64 cells,
    or is refused, and then only because the grid would exceed 64 cells; earlier satellites and signals are kept in both cases. *)
Theorem C53_add_to_header h k prn i j : building h -> to_constellation (mh_num h) <> cINVALID ->
  sat_pos (to_constellation (mh_num h)) prn i -> sig_pos (to_constellation (mh_num h)) k j ->
  (exists h', msm_add_to_header h k prn = Added h' /\ building h' /\ same_fields h h' /\ cell_mask h' = cell_mask h /\
     (forall x, 0 <= x -> znth false x (sat_mask h') = (x =? i) || znth false x (sat_mask h)) /\
     (forall x, 0 <= x -> znth false x (sig_mask h') = (x =? j) || znth false x (sig_mask h))) \/
  (exists h', msm_add_to_header h k prn = NotAdded h' /\ building h' /\ same_fields h h' /\ cell_mask h' = cell_mask h /\ sig_mask h' = sig_mask h /\
     (forall x, 0 <= x -> znth false x (sat_mask h') = true -> x = i \/ znth false x (sat_mask h) = true) /\
     (forall x, 0 <= x -> znth false x (sat_mask h) = true -> znth false x (sat_mask h') = true) /\
     64 < (set_count (sat_mask h) + (if znth false i (sat_mask h) then 0 else 1)) * (set_count (sig_mask h) + (if znth false j (sig_mask h) then 0 else 1))).
Proof. intros. apply add_to_header_spec; assumption. Qed.
(** Once the masks are complete, every (satellite, signal) of the masks has its own cell below 64: the number of set satellites before
    it times the number of signals plus the number of set signals before it; marking it sets exactly that cell; marking it twice fails
    an assertion. *)
Theorem C53_add_to_cell_mask h k prn i j : mask_sizes h -> to_constellation (mh_num h) <> cINVALID ->
  sat_pos (to_constellation (mh_num h)) prn i -> sig_pos (to_constellation (mh_num h)) k j ->
  set_count (sat_mask h) * set_count (sig_mask h) <= 64 -> znth false i (sat_mask h) = true -> znth false j (sig_mask h) = true ->
  0 <= cell_of h i j < 64 /\
  msm_add_to_cell_mask h k prn = (if znth false (cell_of h i j) (cell_mask h) then AddUb else Added (set_cell h (cell_of h i j))).
Proof.
  intros M C Si Sj G Bi Bj. split; [|apply add_cell_spec; assumption].
  destruct (sat_id_of _ _ _ C Si) as (_ & _ & R1). destruct (sig_id_of _ _ _ Sj) as (_ & R2 & _). exact (proj1 (cell_of_range h i j M R1 R2 Bi Bj G)).
Qed.
Theorem C53_cells_distinct h i j i' j' : mask_sizes h -> 0 <= i < 64 -> 0 <= j < 32 -> 0 <= i' < 64 -> 0 <= j' < 32 ->
  znth false i (sat_mask h) = true -> znth false j (sig_mask h) = true -> znth false i' (sat_mask h) = true -> znth false j' (sig_mask h) = true ->
  set_count (sat_mask h) * set_count (sig_mask h) <= 64 -> cell_of h i j = cell_of h i' j' -> i = i' /\ j = j'.
Proof. exact (cell_of_inj h i j i' j'). Qed.
Definition empty_header (num : Z) : mhdr :=
  mkmhdr num 0 0 1 0 0 0 0 0 0 (repeat false 64) (repeat false 32) (repeat false 64).
Example C53_nonvacuous : building (empty_header 1074) /\ sat_pos cGPS 5 4 /\ sig_pos cGPS GPS_L2CM 14 /\
  exists h, msm_add_to_header (empty_header 1074) GPS_L2CM 5 = Added h /\ num_sats h = 1 /\ num_sigs h = 1.
Proof.
  split; [|split; [split; [cbn; lia|reflexivity]|split; [apply in_triples; vm_compute; reflexivity|]]].
  - split; [repeat split|split]; [|vm_compute; discriminate]. intros i. cbn [empty_header cell_mask]. unfold znth. generalize (Z.to_nat i). intros n.
    destruct (Nat.lt_ge_cases n (length (repeat false 64))) as [L|G]; [apply (repeat_spec 64 false); apply nth_In; exact L | apply nth_overflow; exact G].
  - eexists. split; [vm_compute; reflexivity|]. split; vm_compute; reflexivity.
Qed.
(** Not true of unsupported signals: a GPS signal without an entry in the table (here a BeiDou code routed to a GPS header is excluded by the
    caller, but BDS3_B7Q / B7X are BeiDou codes without an MSM id) indexes signal_mask[32], one past its end. *)
Theorem C53_unsupported_signal_refuted : to_constellation 1124 = cBDS /\ sat_pos cBDS 20 19 /\
  code_to_msm_signal_id BDS3_B7Q cBDS = Some 32 /\ len (sig_mask (empty_header 1124)) = 32 /\
  msm_add_to_header (empty_header 1124) BDS3_B7Q 20 = AddUb.
Proof. repeat split; vm_compute; reflexivity || discriminate. Qed.
(** And a refused signal can leave its satellite behind in the mask without any cell: 8 satellites with 7 signals, then a new satellite
    with a new signal: 9*7 = 63 cells still fit, 9*8 do not. *)
Definition wide_header : mhdr :=
  mkmhdr 1074 0 0 1 0 0 0 0 0 0 (repeat true 8 ++ repeat false 56)
    [false; true; true; false; false; false; false; false; true; false; false; false; false; false; true; true; true; false; false; false;
     false; true; false; false; false; false; false; false; false; false; false; false] (repeat false 64).
Theorem C53_satellite_left_behind_refuted : num_sats wide_header = 8 /\ num_sigs wide_header = 7 /\
  exists h', msm_add_to_header wide_header GPS_L5Q 20 = NotAdded h' /\ num_sats h' = 9.
Proof. split; [vm_compute; reflexivity|]. split; [vm_compute; reflexivity|]. eexists. split; [vm_compute; reflexivity|]. vm_compute. reflexivity. Qed.

(** ** C51 *)
(** SBP 1..14 <-> RTCM 0..13, and everything else is unknown, for every byte *)
Theorem C51_fcn_map f : 0 <= f < 256 ->
  (1 <= f <= 14 -> sbp_fcn_to_rtcm f = f - 1) /\ (~ 1 <= f <= 14 -> sbp_fcn_to_rtcm f = 255).
Proof.
  intros R. unfold sbp_fcn_to_rtcm, SBP_GLO_FCN_UNKNOWN, MSM_GLO_FCN_UNKNOWN, MSM_GLO_FCN_OFFSET, SBP_GLO_FCN_OFFSET, MSM_GLO_MAX_FCN. cbv zeta.
  destruct (Z.eqb_spec f 0) as [->|N]; [split; lia|].
  assert (M : (f + 7 - 8) mod 256 = f - 1) by lia. rewrite M.
  destruct (Z.ltb_spec (f - 1) 128); split; intros Q;
    (match goal with |- (if ?b then _ else _) = _ => let E := fresh in destruct b eqn:E end); lia.
Qed.
(** The per-satellite table: after any sequence of updates, looking up a GLONASS satellite through its MSM index yields the last
    channel set for it, and is reported valid exactly when that was a known channel; updates of invalid satellites change nothing. *)
Definition apply_fcns (l : list (Z * Z)) : list Z := fold_left (fun m u => set_glo_fcn m (fst u) (snd u)) l fcn_map0.
Definition last_fcn (l : list (Z * Z)) (sat : Z) : Z :=
  fold_left (fun a u => if fst u =? sat then snd u else a) l 0.
Lemma set_fcn_len m s f : len (set_glo_fcn m s f) = len m.
Proof. unfold set_glo_fcn. destruct ((s <? 1) || (1 + 28 <=? s)); [reflexivity|apply len_zupd]. Qed.
Lemma apply_fcns_spec l : Forall (fun u => 0 <= snd u < 256) l ->
  len (apply_fcns l) = 29 /\ (forall sat, 1 <= sat <= 28 -> znth 0 sat (apply_fcns l) = sbp_fcn_to_rtcm (last_fcn l sat)) /\ znth 0 0 (apply_fcns l) = 255.
Proof.
  induction l as [|u l IH] using rev_ind; intros F.
  - split; [reflexivity|]. split; [|reflexivity]. intros sat R. unfold apply_fcns, last_fcn. cbn [fold_left].
    unfold fcn_map0, znth. apply (repeat_spec 29 255). apply nth_In. rewrite repeat_length. lia.
  - apply Forall_app in F. destruct F as [F1 F2]. specialize (IH F1). destruct IH as (L & IH & IH0).
    unfold apply_fcns, last_fcn in *. rewrite !fold_left_app. cbn [fold_left].
    set (m := fold_left (fun m u => set_glo_fcn m (fst u) (snd u)) l fcn_map0) in *.
    split; [rewrite set_fcn_len; exact L|]. destruct u as [s f]. cbn [fst snd]. unfold set_glo_fcn.
    destruct ((s <? 1) || (1 + 28 <=? s)) eqn:E.
    + split; [|exact IH0]. intros sat R. rewrite fold_left_app. cbn [fold_left fst snd]. replace (s =? sat) with false by lia. apply IH. exact R.
    + split.
      * intros sat R. rewrite fold_left_app. cbn [fold_left fst snd]. rewrite znth_zupd by lia. rewrite (Z.eqb_sym s sat).
        destruct (Z.eqb_spec sat s); [reflexivity|]. apply IH. exact R.
      * rewrite znth_zupd by lia. replace (0 =? s) with false by lia. exact IH0.
Qed.
Theorem C51_channel_lookup l h s prn : Forall (fun u => 0 <= snd u < 256) l ->
  to_constellation (mh_num h) = cGLO -> len (sat_mask h) = 64 -> msm_sat_to_prn h s = Some prn -> prn <> PRN_INVALID ->
  msm_get_glo_fcn h s 255 (apply_fcns l) =
    Some (if (1 <=? last_fcn l prn) && (last_fcn l prn <=? 14) then (true, last_fcn l prn - 1) else (false, 255)).
Proof.
  intros F C L H N. destruct (apply_fcns_spec l F) as (Lm & A & _).
  destruct (sat_index_round_trip h s prn L H N) as (_ & V & _). apply prn_valid_spec in V. rewrite C in V. destruct V as [_ [V _]]. cbn [first_prn prn_count] in V.
  unfold msm_get_glo_fcn. rewrite C. cbn [cons_eqb negb]. rewrite H, Lm.
  replace ((0 <=? prn) && (prn <? 29)) with true by lia. cbv zeta. rewrite A by lia.
  change (255 =? MSM_GLO_FCN_UNKNOWN) with true. cbv iota.
  assert (B : 0 <= last_fcn l prn < 256).
  { clear -F. unfold last_fcn. assert (G : forall a, 0 <= a < 256 -> 0 <= fold_left (fun a u => if fst u =? prn then snd u else a) l a < 256).
    { induction l as [|u l IH]; intros a Ha; cbn [fold_left]; [exact Ha|]. inversion F; subst. apply IH; [assumption|]. destruct (fst u =? prn); assumption. }
    apply G. lia. }
  destruct (C51_fcn_map _ B) as [P Q]. destruct ((1 <=? last_fcn l prn) && (last_fcn l prn <=? 14)) eqn:E.
  - rewrite P by lia. unfold MSM_GLO_MAX_FCN. replace (last_fcn l prn - 1 <=? 13) with true by lia. reflexivity.
  - rewrite Q by lia. reflexivity.
Qed.
(** the channel transmitted in the message takes precedence, and is valid only within 0..13; the table is never indexed out of range *)
Theorem C51_channel_from_message h s v l : to_constellation (mh_num h) = cGLO -> 0 <= v < 255 ->
  msm_get_glo_fcn h s v l = Some (v <=? 13, v).
Proof. intros C R. unfold msm_get_glo_fcn. rewrite C. cbn [cons_eqb negb]. replace (v =? MSM_GLO_FCN_UNKNOWN) with false by (unfold MSM_GLO_FCN_UNKNOWN; lia). reflexivity. Qed.
Theorem C51_lookup_in_bounds l h s : Forall (fun u => 0 <= snd u < 256) l -> len (sat_mask h) = 64 -> 0 <= s < set_count (sat_mask h) ->
  forall v, msm_get_glo_fcn h s v (apply_fcns l) <> None.
Proof.
  intros F L R v. destruct (apply_fcns_spec l F) as (Lm & _ & _). unfold msm_get_glo_fcn.
  destruct (negb (cons_eqb (to_constellation (mh_num h)) cGLO)) eqn:E; [discriminate|]. destruct (v =? MSM_GLO_FCN_UNKNOWN); [|discriminate].
  assert (C : to_constellation (mh_num h) = cGLO) by (apply cons_eqb_spec; destruct (cons_eqb (to_constellation (mh_num h)) cGLO); [reflexivity|discriminate]).
  destruct (msm_sat_to_prn h s) as [prn|] eqn:H.
  - rewrite Lm. assert (P : 0 <= prn < 29).
    { destruct (Z.eq_dec prn PRN_INVALID) as [->|N]; [unfold PRN_INVALID; lia|].
      destruct (sat_index_round_trip h s prn L H N) as (_ & V & _). apply prn_valid_spec in V. rewrite C in V. destruct V as [_ [V _]]. cbn [first_prn prn_count] in V. lia. }
    replace ((0 <=? prn) && (prn <? 29)) with true by lia. discriminate.
  - exfalso. unfold msm_sat_to_prn in H. cbv zeta in H. rewrite C in H. cbn [cons_eqb] in H.
    destruct (find_nth_mask_value 64 (sat_mask h) (s + 1)) eqn:Fn; [discriminate|]. rewrite <- L in Fn.
    apply (proj2 (find_nth_mask_value_spec (sat_mask h) (s + 1) (set_count_le (sat_mask h) ltac:(lia)) ltac:(lia))) in Fn. lia.
Qed.
Example C51_nonvacuous : msm_sat_to_prn (mkmhdr 1084 0 0 0 0 0 0 0 0 0 (false :: true :: false :: true :: repeat false 60) (repeat false 32) (repeat false 64)) 1 = Some 4 /\
  last_fcn [(4, 3); (5, 9); (4, 12)] 4 = 12.
Proof. split; vm_compute; reflexivity. Qed.
Print Assumptions C27_code_to_signal_id.
Print Assumptions C27_signal_id_to_code.
Print Assumptions C27_numbering_injective.
Print Assumptions C27_signal_index_round_trip.
Print Assumptions C27_signal_code_round_trip.
Print Assumptions C27_sat_index_round_trip.
Print Assumptions C27_sat_prn_round_trip.
Print Assumptions C27_foreign_prn_rejected.
Print Assumptions C27_message_number.
Print Assumptions C27_gps_z_tracking_refuted.
Print Assumptions C53_message_constellation.
Print Assumptions C53_add_to_header.
Print Assumptions C53_add_to_cell_mask.
Print Assumptions C53_cells_distinct.
Print Assumptions C53_unsupported_signal_refuted.
Print Assumptions C53_satellite_left_behind_refuted.
Print Assumptions C51_fcn_map.
Print Assumptions C51_channel_lookup.
Print Assumptions C51_channel_from_message.
Print Assumptions C51_lookup_in_bounds.
