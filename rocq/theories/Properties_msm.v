(** C11, C12, C13 (and C14 for MSM).  Masks, cells and "received" are defined in RtcmMsm_spec; units: ranges 2^-31 ms,
    range rates 0.0001 m/s, C/N0 1/16 dB-Hz, lock times 1 ms. *)
From Verif Require Import Base Bitstring Bits_model Bitstream_model Bitstream_proofs RtcmStation_spec RtcmLegacy_model RtcmMsm_model RtcmMsm_spec RtcmMsm_proofs.

(** *** C11 *)
(** For every mask of at most 64 bits: find_nth_mask_value returns the position of the n-th set bit, i.e. the one with n-1 set
    bits before it; its assertion fails exactly when there is no n-th set bit; count_mask_values counts the set bits. *)
Theorem C11_find_nth_mask_value : forall mask n, len mask <= 64 ->
  (forall pos, find_nth_mask_value (len mask) mask n = Some pos <-> nth_set mask n pos) /\
  (find_nth_mask_value (len mask) mask n = None <-> ~ 1 <= n <= set_count mask) /\
  count_mask (len mask) mask = set_count mask.
Proof.
  intros mask n H. pose proof (set_count_range mask). destruct (find_nth_mask_value_spec mask n ltac:(lia) H) as [A B].
  split; [exact A|]. split; [exact B|]. apply count_full; lia.
Qed.
Print Assumptions C11_find_nth_mask_value.
Example C11_mask : find_nth_mask_value 5 [false; true; false; true; true] 3 = Some 4 /\ find_nth_mask_value 5 [false; true; false; true; true] 4 = None.
Proof. split; reflexivity. Qed.
(** The double loop shared by encoder and decoder visits the set cells of a satellites x signals cell mask, each once, in mask
    order: the i-th visited cell is (s, g) iff cell s*ng+g is set and has exactly i set cells before it. *)
Theorem C11_cells_in_mask_order : forall ns ng mask, 0 <= ns -> 0 <= ng -> len mask = ns * ng ->
  len (cells ns ng mask) = set_count mask /\
  (forall i s g, cell_is mask ng i s g <-> 0 <= i < set_count mask /\ znth (0, 0) i (cells ns ng mask) = (s, g)).
Proof. exact cells_spec. Qed.
Print Assumptions C11_cells_in_mask_order.
Example C11_cells : cells 2 3 [true; false; true; false; false; true] = [(0, 0); (0, 2); (1, 2)].
Proof. reflexivity. Qed.
(** In every message the MSM4-MSM7 decoder accepts, masks and arrays agree: cell mask = satellites x signals, one satellite
    entry per set satellite bit, one signal entry per set cell, all within the array sizes. *)
Theorem C11_decoded_masks_consistent : forall ty p m, run_dec (decode_msm ty) p = Ok m ->
  let h := m_hdr m in
  len (sat_mask h) = 64 /\ len (sig_mask h) = 32 /\ set_count (sat_mask h) <= 32 /\ len (cell_mask h) = set_count (sat_mask h) * set_count (sig_mask h) /\
  len (cell_mask h) <= 64 /\ len (m_sats m) = set_count (sat_mask h) /\ len (m_sigs m) = set_count (cell_mask h).
Proof.
  intros ty p m H. unfold run_dec in H. destruct (decode_msm ty (bits_of_bytes p)) as [a r| | |] eqn:E; try discriminate.
  injection H as <-. exact (decode_msm_shape ty _ _ _ E).
Qed.
Print Assumptions C11_decoded_masks_consistent.

(** *** C12 *)
(** MSM4 and MSM5: every message that respects [msm_ok] is encoded in exactly the expected number of bytes (at most 678) and decoded
    to the same header, masks, satellites and cells, each value within half a unit of its field's resolution. *)
Theorem C12_msm_round_trip_partial : forall ty m buff, msm_ok ty m -> bytes buff -> 678 <= len buff ->
  exists b n, encode_msm ty m buff = Ok (b, n) /\ 0 < n <= 678 /\ len b = len buff /\ bytes b /\
    exists m', run_dec (decode_msm ty) (take n b) = Ok m' /\ msm_received ty m m'.
Proof.
  intros ty m buff Hm Hb Hl. set (n := byte_len (msm_bits ty (m_hdr m))).
  assert (N : 0 < n <= 678).
  { destruct (cs_facts ty m Hm) as (A & B & _). destruct Hm as (T & Hh & L1 & L2 & _). destruct (hdr_counts _ _ Hh) as (A' & B' & C' & D & E & N1 & N2).
    destruct Hh as (_ & _ & _ & _ & _ & _ & _ & _ & _ & _ & _ & _ & _ & S1 & S2 & L3).
    pose proof (set_count_range (cell_mask (m_hdr m))). rewrite <- A', <- B' in *.
    assert (0 <= num_sats (m_hdr m) * num_sigs (m_hdr m)) by nia.
    unfold n, byte_len, msm_bits. destruct (ty =? 5); lia. }
  destruct (msm_round_trip ty m Hm buff Hb ltac:(fold n; lia)) as (b & E & L & B & m' & D & R). fold n in E, D.
  exists b, n. split; [exact E|]. split; [exact N|]. split; [exact L|]. split; [exact B|]. exists m'. split; assumption.
Qed.
Print Assumptions C12_msm_round_trip_partial.
(** the lock-time indicator *)
Theorem C12_lock_time : forall t, msm_lock_close t (decode_lock_time (encode_lock_time t)) /\ 0 <= encode_lock_time t <= 15.
Proof. exact lock_close_msm. Qed.
Print Assumptions C12_lock_time.

(** a sample message: GPS MSM5 (1075), 2 satellites x 2 signals, 3 cells *)
Definition bits (n : nat) (l : list Z) : list bool := map (fun i => existsb (Z.eqb (Z.of_nat i)) l) (seq 0 n).
Definition sample_hdr (num : Z) : mhdr := mkmhdr num 345 259200000 1 3 17 1 2 0 5 (bits 64 [4; 31]) (bits 32 [1; 14]) [true; false; true; true].
Definition sample_msat (r : Z) : msat := mkmsat 0 r (-4567890).
Definition sample_msig (p : Z) : msig := mkmsig p (p + 12345) 5000 false 723 (-4561234) true true true true true.
Definition sample_rr : Z := 72 * 2 ^ 31 + 700000000.
Definition sample_mmsg (num : Z) : mmsg :=
  mkmmsg (sample_hdr num) [sample_msat sample_rr; sample_msat (sample_rr + 10 ^ 10)]
    [sample_msig (sample_rr + 99999); sample_msig (sample_rr + 10 ^ 10 - 54321); sample_msig (sample_rr + 10 ^ 10 + 777)].
Ltac conj := match goal with
  | |- _ /\ _ => split; conj
  | |- Forall _ (m_sats _) => unfold m_sats, sample_mmsg; conj
  | |- Forall _ (m_sigs _) => unfold m_sigs, sample_mmsg; conj
  | |- Forall _ [] => constructor
  | |- Forall _ (_ :: _) => constructor; [conj|conj]
  | |- _ \/ _ => first [left; reflexivity|right; reflexivity]
  | |- _ => vm_compute; first [reflexivity | congruence | intros; first [reflexivity | congruence | (split; congruence)]]
  end.
Example C12_applies : msm_ok 5 (sample_mmsg 1075) /\ msm_ok 4 (sample_mmsg 1084) /\ msm_ok 4 (sample_mmsg 1124).
Proof. unfold msm_ok, msm_hdr_ok, msm_sat_ok, msm_sig_ok, ubits, byte. conj. Qed.

(** What the full claim would need and the code does not do. *)
(** (1) A rough range within 1/2048 ms below a whole millisecond is rounded to 1024/1024 ms, which the 10-bit field truncates
    to 0: the satellite's decoded range is 1 ms (300 km) short. *)
Theorem C12_rough_range_wraps_refuted : exists m m' n b,
  msm_hdr_ok 4 (m_hdr m) /\ len (m_sats m) = 2 /\ Forall (fun s => 0 <= rough_range s < 255 * MS) (m_sats m) /\ Forall msm_sig_ok (m_sigs m) /\
  encode_msm 4 m (repeat 0 678) = Ok (b, n) /\ run_dec (decode_msm 4) (take n b) = Ok m' /\
  rough_range (znth no_sat 0 (m_sats m)) - rough_range (znth no_sat 0 (m_sats m')) >= 2 ^ 31 - 2 ^ 20.
Proof.
  set (m := mkmmsg (sample_hdr 1074) [sample_msat (73 * 2 ^ 31 - 1000); sample_msat sample_rr] (m_sigs (sample_mmsg 1074))).
  destruct (encode_msm 4 m (repeat 0 678)) as [[b n]| | |] eqn:E; try (vm_compute in E; discriminate E).
  destruct (run_dec (decode_msm 4) (take n b)) as [m'| | |] eqn:D.
  - exists m, m', n, b.
    assert (X : match (match encode_msm 4 m (repeat 0 678) with Ok (b, n) => run_dec (decode_msm 4) (take n b) | _ => Invalid end) with
                Ok m' => rough_range (znth no_sat 0 (m_sats m')) =? 72 * 2 ^ 31 | _ => false end = true) by (vm_compute; reflexivity).
    rewrite E, D in X. apply Z.eqb_eq in X. rewrite X. clear X.
    split; [unfold msm_hdr_ok, ubits; conj|]. split; [reflexivity|].
    split; [unfold m; cbn [m_sats]; conj|]. split; [unfold m, msm_sig_ok; cbn [m_sigs sample_mmsg]; conj|].
    split; [exact E|]. split; [exact D|]. vm_compute; congruence.
  - exfalso. assert (X : match (match encode_msm 4 m (repeat 0 678) with Ok (b, n) => run_dec (decode_msm 4) (take n b) | _ => Invalid end) with Ok _ => true | _ => false end = true) by (vm_compute; reflexivity).
    rewrite E, D in X. discriminate.
  - exfalso. assert (X : match (match encode_msm 4 m (repeat 0 678) with Ok (b, n) => run_dec (decode_msm 4) (take n b) | _ => Invalid end) with Ok _ => true | _ => false end = true) by (vm_compute; reflexivity).
    rewrite E, D in X. discriminate.
  - exfalso. assert (X : match (match encode_msm 4 m (repeat 0 678) with Ok (b, n) => run_dec (decode_msm 4) (take n b) | _ => Invalid end) with Ok _ => true | _ => false end = true) by (vm_compute; reflexivity).
    rewrite E, D in X. discriminate.
Qed.
Print Assumptions C12_rough_range_wraps_refuted.
(** (2) C/N0 of 63.5 dB-Hz and more does not fit 6 bits: 64 dB-Hz is transmitted as 0, "C/N0 not available". *)
Theorem C12_cnr_wraps_refuted : exists g, sv_cnr g = true /\ s_cnr g = 64 * 16 /\ sig_conv_ok g = true /\ cnr_field g mod 2 ^ 6 = 0.
Proof. exists (mkmsig 0 0 0 false (64 * 16) 0 true true true true true). repeat split. Qed.
Print Assumptions C12_cnr_wraps_refuted.

(** *** C13 *)
(** Bits 73-136 of a payload are its satellite mask, 137-168 its signal mask.  If the decoder leaves its arrays, the masks
    announce more than 32 satellites or more than 64 cells; all other payloads of any content and length are safe. *)
Theorem C13_msm_decoder_in_bounds_partial : forall ty p,
  set_count (sub (bits_of_bytes p) 73 64) <= 32 -> set_count (sub (bits_of_bytes p) 73 64) * set_count (sub (bits_of_bytes p) 137 32) <= 64 ->
  run_dec (decode_msm ty) p <> Ub.
Proof.
  intros ty p H1 H2 H. unfold run_dec in H. destruct (decode_msm ty (bits_of_bytes p)) eqn:E; try discriminate.
  destruct (decode_msm_ub _ _ E) as [L X]. cbv zeta in X.
  pose proof (set_count_range (sub (bits_of_bytes p) 73 64)). pose proof (set_count_range (sub (bits_of_bytes p) 137 32)).
  destruct X as [X|X]; [|lia]. rewrite Z.mod_small in X by nia. lia.
Qed.
Print Assumptions C13_msm_decoder_in_bounds_partial.
(** payloads: GPS MSM4 with the given satellite and signal masks and all-ones data *)
Definition msm_payload (num : Z) (sats sigs : list Z) (extra : nat) : list Z :=
  fst (put_fields (repeat 255 (22 + extra)) 0 ([(12, num); (12, 1); (30, 0); (1, 0); (3, 0); (7, 0); (2, 0); (2, 0); (1, 0); (3, 0)] ++ flag_fields (bits 64 sats) ++ flag_fields (bits 32 sigs))).
Example C13_applies : let p := msm_payload 1074 [1; 2; 3; 4] [1; 2] 100 in
  set_count (sub (bits_of_bytes p) 73 64) = 4 /\ set_count (sub (bits_of_bytes p) 137 32) = 2 /\ exists m, run_dec (decode_msm 4) p = Ok m.
Proof. vm_compute. repeat split. eexists. reflexivity. Qed.
(** 13 satellites x 5 signals = 65 cells: the 65th cell flag is written past cell_mask[64], before the size is checked *)
Theorem C13_cell_mask_overflow_refuted : exists p, bytes p /\ len p <= 1023 /\ run_dec (decode_msm 4) p = Ub.
Proof.
  exists (msm_payload 1074 [0; 1; 2; 3; 4; 5; 6; 7; 8; 9; 10; 11; 12] [1; 2; 3; 4; 5] 10).
  split; [|split; [vm_compute; congruence|vm_compute; reflexivity]].
  apply Forall_forall. intros x Hx. vm_compute in Hx. unfold byte. repeat (destruct Hx as [<-|Hx]; [lia|]). destruct Hx.
Qed.
Print Assumptions C13_cell_mask_overflow_refuted.
(** 33 satellites x 1 signal = 33 cells, accepted; entry 33 is written past sats[32] *)
Theorem C13_satellite_array_overflow_refuted : exists p, bytes p /\ len p <= 1023 /\
  set_count (sub (bits_of_bytes p) 73 64) * set_count (sub (bits_of_bytes p) 137 32) = 33 /\ run_dec (decode_msm 4) p = Ub.
Proof.
  exists (msm_payload 1074 (map Z.of_nat (seq 0 33)) [1] 400).
  split; [|split; [vm_compute; congruence|split; vm_compute; reflexivity]].
  apply Forall_forall. intros x Hx. apply (In_nth _ _ 0) in Hx. destruct Hx as (i & Hi & <-).
  assert (X : forallb byteb (msm_payload 1074 (map Z.of_nat (seq 0 33)) [1] 400) = true) by (vm_compute; reflexivity).
  rewrite forallb_forall in X. specialize (X _ (nth_In _ 0 Hi)). unfold byteb in X. unfold byte. lia.
Qed.
Print Assumptions C13_satellite_array_overflow_refuted.

(** *** C14 for MSM4-MSM7 *)
Theorem C14_truncated_msm_rejected : forall ty p m, run_dec (decode_msm ty) p = Ok m ->
  exists n, 0 <= n <= 8 * len p /\ forall i, 0 <= i <= len p -> run_dec (decode_msm ty) (take i p) = if 8 * i <? n then Invalid else Ok m.
Proof. intros ty. exact (truncation _ (cut_msm ty)). Qed.
Print Assumptions C14_truncated_msm_rejected.

(** *** C53: the time of a received message *)
Lemma bind_ok {A B} (x : dec A) (f : A -> dec B) bs b r : dbind x f bs = DOk b r -> exists a r', x bs = DOk a r' /\ f a r' = DOk b r.
Proof. unfold dbind. destruct (x bs) as [a r'| | |]; try discriminate. eauto. Qed.
Lemma u_ok n bs v r : get_u n bs = DOk v r -> n <= len bs /\ v = val_be (take n bs) /\ r = drop n bs.
Proof. unfold get_u. destruct (Z.ltb_spec (len bs) n); [discriminate|]. intros E. injection E as <- <-. auto. Qed.
Lemma skip_ok n bs v r : skip n bs = DOk v r -> r = drop n bs.
Proof. unfold skip. intros E. injection E as _ <-. reflexivity. Qed.
(** The time of every decoded MSM4-MSM7 message is what its bits say: 30 bits after number and station; for GLONASS the 27 bits after the day of week; for BeiDou
    values in the last 14 s before 2^30 are times before the start of the week; and it is a time of week (GLONASS: of day). *)
Theorem C53_header_time ty bs m r : decode_msm ty bs = DOk m r ->
  let c := to_constellation (val_be (take 12 bs)) in let t := val_be (take 30 (drop 24 bs)) in
  mh_num (m_hdr m) = val_be (take 12 bs) /\ mh_stn (m_hdr m) = val_be (take 12 (drop 12 bs)) /\
  mh_tow (m_hdr m) = match c with
                     | cGLO => val_be (take 27 (drop 27 bs))
                     | cBDS => if t <? 2 ^ 30 - 14000 then t else t - 2 ^ 30 + 604800000
                     | _ => t
                     end /\
  0 <= mh_tow (m_hdr m) < (match c with cGLO => 86400000 | _ => 604800000 end).
Proof.
  unfold decode_msm. intros H. destruct (negb (between 4 ty 7)); [discriminate|].
  apply bind_ok in H. destruct H as (num & r1 & E1 & H). apply u_ok in E1. destruct E1 as (L1 & N & ->). rewrite <- N.
  destruct (negb (ty =? to_msm_type num)); [discriminate|]. destruct (cons_eqb (to_constellation num) cINVALID); [discriminate|].
  apply bind_ok in H. destruct H as (h & r2 & E2 & H). destruct (Z.ltb_spec (if cons_eqb (to_constellation num) cGLO then RTCM_GLO_MAX_TOW_MS else RTCM_MAX_TOW_MS) (mh_tow h)) as [|LE]; [discriminate|].
  destruct (64 <? _); [discriminate|]. cbv zeta in H.
  do 10 (apply bind_ok in H; destruct H as (? & ? & _ & H)). destruct (32 <? num_sats h); [discriminate|]. unfold ret in H. injection H as <- _. cbn [m_hdr].
  unfold get_msm_header in E2. apply bind_ok in E2. destruct E2 as (stn & r3 & E3 & E2). apply u_ok in E3. destruct E3 as (L3 & S3 & ->).
  apply bind_ok in E2. destruct E2 as (tow & r4 & E4 & E2).
  do 10 (apply bind_ok in E2; destruct E2 as (? & ? & _ & E2)). unfold ret in E2. injection E2 as <- _. cbn [mh_num mh_stn mh_tow] in *.
  assert (RG : forall n l, 0 <= n -> n <= len l -> 0 <= val_be (take n l) < 2 ^ n).
  { intros n l N0 N1. pose proof (Bits_proofs.val_be_range (take n l)) as V. rewrite len_take in V. replace (Z.min (Z.max 0 n) (len l)) with n in V by lia. exact V. }
  assert (X : tow = match to_constellation num with
                     | cGLO => val_be (take 27 (drop 27 bs))
                     | cBDS => if val_be (take 30 (drop 24 bs)) <? 2 ^ 30 - 14000 then val_be (take 30 (drop 24 bs)) else val_be (take 30 (drop 24 bs)) - 2 ^ 30 + 604800000
                     | _ => val_be (take 30 (drop 24 bs))
                     end /\ 0 <= tow).
  { rewrite drop_drop in E4 by lia. change (12 + 12) with 24 in E4. destruct (to_constellation num).
    3: { apply bind_ok in E4. destruct E4 as (? & ? & K & E4). apply skip_ok in K. subst. apply u_ok in E4. destruct E4 as (L4 & -> & _). rewrite drop_drop in * by lia. change (24 + 3) with 27 in *. split; [reflexivity|]. apply RG; [lia|exact L4]. }
    3: { apply bind_ok in E4. destruct E4 as (t & ? & K & E4). apply u_ok in K. destruct K as (L4 & -> & _). unfold ret in E4. injection E4 as <- _. unfold normalize_bds2_tow, RTCM_MAX_TOW_MS.
         pose proof (RG 30 _ ltac:(lia) L4) as R0. destruct (Z.leb_spec (2 ^ 30 - 14000) (val_be (take 30 (drop 24 bs)))), (Z.ltb_spec (val_be (take 30 (drop 24 bs))) (2 ^ 30 - 14000)); split; lia. }
    all: apply u_ok in E4; destruct E4 as (L4 & -> & _); split; [reflexivity|]; apply RG; [lia|exact L4]. }
  destruct X as [X X0]. split; [reflexivity|]. split; [exact S3|]. split; [exact X|]. split; [exact X0|].
  clear - LE. unfold RTCM_GLO_MAX_TOW_MS, RTCM_MAX_TOW_MS in LE. destruct (to_constellation num); cbn in LE |- *; lia.
Qed.
Print Assumptions C53_header_time.
