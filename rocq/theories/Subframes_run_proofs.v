From Verif Require Import Base Bitstring Bits_model Bits_proofs Crc RtcmMsm_model Signals_model Subframes_model Subframes_spec Subframes_proofs.

(** ** contents *)
Lemma testbit_fld w a k : 0 <= a -> 0 <= k < 8 -> Z.testbit (fld w a 0xFF) k = Z.testbit w (a + k).
Proof.
  intros. unfold fld. change 0xFF with (Z.ones 8). rewrite Z.land_spec, Z.shiftr_spec, Z.ones_spec_low, andb_true_r by lia. f_equal. lia.
Qed.
Lemma testbit_low w k : 0 <= k < 8 -> Z.testbit (Z.land w 0xFF) k = Z.testbit w k.
Proof. intros. change 0xFF with (Z.ones 8). rewrite Z.land_spec, Z.ones_spec_low, andb_true_r by lia. reflexivity. Qed.
Lemma byte_land w : byte (Z.land w 0xFF).
Proof. unfold byte. change 0xFF with (Z.ones 8). rewrite Z.land_ones by lia. apply Z.mod_pos_bound. lia. Qed.
Lemma byte_fld w a : byte (fld w a 0xFF). Proof. apply byte_land. Qed.
Lemma bytes_be4 w : bytes (be4 w).
Proof. unfold be4. repeat constructor; first [apply byte_fld | apply byte_land]. Qed.
Lemma be4_bits w : bits_of_bytes (be4 w) = bits_be 32 w.
Proof.
  unfold bits_of_bytes, be4. cbn [flat_map app bits_be].
  rewrite !testbit_fld by lia. rewrite !testbit_low by lia. reflexivity.
Qed.
Lemma bits_of_bytes_app a b : bits_of_bytes (a ++ b) = bits_of_bytes a ++ bits_of_bytes b.
Proof. unfold bits_of_bytes. apply flat_map_app. Qed.
Lemma len_bits_of_bytes l : len (bits_of_bytes l) = 8 * len l.
Proof.
  unfold bits_of_bytes. induction l as [|a l IH]; [reflexivity|]. cbn [flat_map]. rewrite len_app, len_cons, IH.
  unfold len at 1. rewrite length_bits_be. lia.
Qed.
Lemma bits_high b k : byte b -> 8 <= k -> Z.testbit b k = false.
Proof.
  intros [H1 H2] Hk. destruct (Z.eq_dec b 0) as [->|]; [apply Z.testbit_0_l|].
  apply Z.bits_above_log2; [lia|]. apply Z.log2_lt_pow2; [lia|]. apply Z.lt_le_trans with (2 ^ 8); [lia|]. apply Z.pow_le_mono_r; lia.
Qed.
Lemma shl2_bits b c : byte c ->
  bits_be 8 (Z.land (Z.lor (Z.shiftl b 2) (Z.shiftr c (8 - 2))) 0xFF) = drop 2 (bits_be 8 b) ++ take 2 (bits_be 8 c).
Proof.
  intros Hc. cbn [bits_be]. rewrite !testbit_low by lia. rewrite !Z.lor_spec, !Z.shiftl_spec, !Z.shiftr_spec by lia.
  change (Z.of_nat 7 + (8 - 2)) with 13. change (Z.of_nat 6 + (8 - 2)) with 12. change (Z.of_nat 5 + (8 - 2)) with 11.
  change (Z.of_nat 4 + (8 - 2)) with 10. change (Z.of_nat 3 + (8 - 2)) with 9. change (Z.of_nat 2 + (8 - 2)) with 8.
  change (Z.of_nat 1 + (8 - 2)) with 7. change (Z.of_nat 0 + (8 - 2)) with 6.
  change (Z.of_nat 7 - 2) with 5. change (Z.of_nat 6 - 2) with 4. change (Z.of_nat 5 - 2) with 3.
  change (Z.of_nat 4 - 2) with 2. change (Z.of_nat 3 - 2) with 1. change (Z.of_nat 2 - 2) with 0.
  change (Z.of_nat 1 - 2) with (-1). change (Z.of_nat 0 - 2) with (-2).
  rewrite !(bits_high c) by (try assumption; lia). rewrite (Z.testbit_neg_r b (-1)), (Z.testbit_neg_r b (-2)) by lia.
  rewrite !orb_false_r. reflexivity.
Qed.
Lemma bitshl_bits p : bytes p -> p <> [] -> bits_of_bytes (bitshl 2 p) = drop 2 (bits_of_bytes p) ++ [false; false].
Proof.
  induction p as [|b p IH]; intros HB Hp; [contradiction|]. inversion HB; subst.
  cbn [bitshl]. unfold bits_of_bytes in *. cbn [flat_map].
  destruct p as [|c p].
  - cbn [hd bitshl flat_map app]. rewrite shl2_bits by (unfold byte; lia). reflexivity.
  - rewrite IH by (try assumption; discriminate). cbn [hd]. inversion H2; subst. rewrite shl2_bits by assumption.
    cbn [flat_map]. set (r := flat_map (bits_be 8) p). 
    cbn [bits_be]. reflexivity.
Qed.
Lemma word_split ws k : len ws > k -> 0 <= k -> take (k + 1) ws = take k ws ++ [word ws k].
Proof.
  intros. unfold word, znth, take. replace (Z.to_nat (k + 1)) with (S (Z.to_nat k)) by lia.
  assert (Z.to_nat k < length ws)%nat by (unfold len in *; lia).
  revert H1. generalize (Z.to_nat k). clear. intros n. revert ws. induction n; intros [|a ws] H; cbn in *; try lia; [reflexivity|].
  f_equal. apply IHn. lia.
Qed.
Lemma gal_content_bits ws : 5 <= len ws -> bits_of_bytes (gal_content ws) = gal_page_bits ws.
Proof.
  intros H. unfold gal_content, gal_page_bits.
  change (take 4 ws) with (take (3 + 1) ws). rewrite word_split by lia. change (take 3 ws) with (take (2 + 1) ws). rewrite word_split by lia.
  change (take 2 ws) with (take (1 + 1) ws). rewrite word_split by lia. change (take 1 ws) with (take (0 + 1) ws). rewrite word_split by lia.
  change (take 0 ws) with (@nil Z). unfold word_bits. rewrite !flat_map_app. cbn [flat_map]. rewrite !app_nil_r, app_nil_l.
  unfold wd, word. generalize (znth 0 0 ws) (znth 0 1 ws) (znth 0 2 ws) (znth 0 3 ws) (znth 0 4 ws). clear. intros a b c d e.
  rewrite bits_of_bytes_app. f_equal.
  - set (p := be4 a ++ be4 b ++ be4 c ++ be4 d).
    assert (HB : bytes p) by (unfold p, bytes; rewrite !Forall_app; repeat split; apply bytes_be4).
    assert (HL : bits_of_bytes (take 14 (bitshl 2 p)) = take 112 (bits_of_bytes (bitshl 2 p))).
    { rewrite <- (take_drop 14 (bitshl 2 p)) at 2. rewrite bits_of_bytes_app.
      assert (L : len (bits_of_bytes (take 14 (bitshl 2 p))) = 112).
      { rewrite len_bits_of_bytes, len_take. reflexivity. }
      unfold take at 2. rewrite firstn_app. unfold len in L. replace (Z.to_nat 112 - length (bits_of_bytes (take 14 (bitshl 2 p))))%nat with 0%nat by lia.
      rewrite firstn_O, app_nil_r. rewrite firstn_all2 by lia. reflexivity. }
    rewrite HL, bitshl_bits by (try exact HB; discriminate). unfold p. rewrite !bits_of_bytes_app, !be4_bits.
    reflexivity.
  - unfold bits_of_bytes. cbn [flat_map app bits_be]. rewrite !testbit_fld by lia. rewrite !testbit_low by lia.
    assert (F : forall k, 0 <= k < 16 -> Z.testbit (fld e 14 0xFFFF) k = Z.testbit e (14 + k)).
    { intros k Hk. unfold fld. change 0xFFFF with (Z.ones 16). rewrite Z.land_spec, Z.shiftr_spec, Z.ones_spec_low, andb_true_r by lia. f_equal. lia. }
    rewrite !F by lia. reflexivity.
Qed.

Lemma bitat_val1 p i : 0 <= i -> getbitu p i 1 = Z.b2z (bitat p i).
Proof. intros. rewrite getbitu_spec by lia. change (Z.to_nat 1) with 1%nat. cbn [bits_at]. unfold val_be. cbn. destruct (bitat p i); reflexivity. Qed.
Lemma setbit1 p i b : 0 <= i < 8 * len p ->
  len (setbitu p i 1 (Z.b2z b)) = len p /\ (bytes p -> bytes (setbitu p i 1 (Z.b2z b))) /\
  forall j, 0 <= j -> bitat (setbitu p i 1 (Z.b2z b)) j = if j =? i then b else bitat p j.
Proof.
  intros H. destruct (setu_spec p i 1 ltac:(lia) ltac:(lia) (Z.b2z b) ltac:(lia)) as (A & B & C & D).
  split; [exact A|]. split; [exact B|]. intros j Hj. destruct (j =? i) eqn:E.
  - assert (j = i) by lia. subst j. change (Z.to_nat 1) with 1%nat in D. cbn [bits_at bits_be] in D. injection D as D. rewrite D. destruct b; reflexivity.
  - apply C; lia.
Qed.
Lemma glo_swap_spec p k : 88 <= 8 * len p -> 0 <= k <= 42 ->
  len (glo_swap p k) = len p /\ (bytes p -> bytes (glo_swap p k)) /\
  forall j, 0 <= j -> bitat (glo_swap p k) j = if j =? k then bitat p (84 - k) else if j =? 84 - k then bitat p k else bitat p j.
Proof.
  intros HL Hk. unfold glo_swap. change (85 - 1 - k) with (84 - k). rewrite !bitat_val1 by lia.
  destruct (setbit1 p k (bitat p (84 - k)) ltac:(lia)) as (A & B & C).
  set (q := setbitu p k 1 (Z.b2z (bitat p (84 - k)))) in *.
  destruct (setbit1 q (84 - k) (bitat p k) ltac:(lia)) as (A' & B' & C').
  split; [lia|]. split; [tauto|]. intros j Hj. rewrite C' by lia. destruct (j =? 84 - k) eqn:E1.
  - destruct (j =? k) eqn:E2; [f_equal; lia| reflexivity].
  - apply C. lia.
Qed.
Definition glo_rev (n : nat) (p : list Z) : list Z := fold_left glo_swap (map Z.of_nat (seq 0 n)) p.
Lemma glo_fold p n : 88 <= 8 * len p -> (n <= 43)%nat ->
  let q := glo_rev n p in
  len q = len p /\ (bytes p -> bytes q) /\
  forall j, 0 <= j -> bitat q j = if (j <=? 84) && ((j <? Z.of_nat n) || (84 - j <? Z.of_nat n)) then bitat p (84 - j) else bitat p j.
Proof.
  intros HL. induction n as [|n IH]; intros Hn.
  - cbv zeta. unfold glo_rev. change (map Z.of_nat (seq 0 0)) with (@nil Z). cbn [fold_left]. change (Z.of_nat 0) with 0.
    split; [reflexivity|]. split; [tauto|]. intros j Hj. destruct ((j <=? 84) && ((j <? 0) || (84 - j <? 0))) eqn:E; [lia| reflexivity].
  - cbv zeta in *. unfold glo_rev in *. rewrite seq_S, map_app, fold_left_app. cbn [map fold_left]. specialize (IH ltac:(lia)).
    set (q := fold_left glo_swap (map Z.of_nat (seq 0 n)) p) in *. destruct IH as (A & B & C). rewrite Nat.add_0_l.
    destruct (glo_swap_spec q (Z.of_nat n) ltac:(lia) ltac:(lia)) as (A' & B' & C').
    split; [lia|]. split; [tauto|]. intros j Hj. rewrite C' by lia.
    destruct (j =? Z.of_nat n) eqn:E1.
    + assert (j = Z.of_nat n) by lia. subst j. rewrite C by lia.
      destruct (Z.eq_dec (Z.of_nat n) 42) as [E|E].
      * rewrite E. change (84 - 42) with 42. destruct ((42 <=? 84) && _); destruct ((42 <=? 84) && _); reflexivity.
      * replace ((84 - Z.of_nat n <=? 84) && ((84 - Z.of_nat n <? Z.of_nat n) || (84 - (84 - Z.of_nat n) <? Z.of_nat n))) with false by lia.
        replace ((Z.of_nat n <=? 84) && ((Z.of_nat n <? Z.of_nat (S n)) || (84 - Z.of_nat n <? Z.of_nat (S n)))) with true by lia. reflexivity.
    + destruct (j =? 84 - Z.of_nat n) eqn:E2.
      * rewrite C by lia. assert (j = 84 - Z.of_nat n) by lia. subst j.
        replace ((Z.of_nat n <=? 84) && ((Z.of_nat n <? Z.of_nat n) || (84 - Z.of_nat n <? Z.of_nat n))) with false by lia.
        replace ((84 - Z.of_nat n <=? 84) && ((84 - Z.of_nat n <? Z.of_nat (S n)) || (84 - (84 - Z.of_nat n) <? Z.of_nat (S n)))) with true by lia.
        f_equal. lia.
      * rewrite C by lia.
        replace ((j <=? 84) && ((j <? Z.of_nat (S n)) || (84 - j <? Z.of_nat (S n)))) with ((j <=? 84) && ((j <? Z.of_nat n) || (84 - j <? Z.of_nat n))); [reflexivity|].
        destruct (j <=? 84) eqn:Q; [|reflexivity]. cbn [andb]. lia.
Qed.
Definition zrange (n : nat) : list Z := map Z.of_nat (seq 0 n).
Lemma in_zrange n x : 0 <= x < Z.of_nat n -> In x (zrange n).
Proof. intros. unfold zrange. apply in_map_iff. exists (Z.to_nat x). split; [lia|]. apply in_seq. lia. Qed.
Lemma reverse_byte_spec b k : byte b -> 0 <= k < 8 -> Z.testbit (reverse_byte b) k = Z.testbit b (7 - k).
Proof.
  intros Hb Hk.
  assert (G : forallb (fun b => forallb (fun k => Bool.eqb (Z.testbit (reverse_byte b) k) (Z.testbit b (7 - k))) (zrange 8)) (zrange 256) = true) by (vm_compute; reflexivity).
  rewrite forallb_forall in G. specialize (G b (in_zrange 256 b ltac:(unfold byte in Hb; lia))).
  rewrite forallb_forall in G. specialize (G k (in_zrange 8 k ltac:(lia))). apply eqb_prop. exact G.
Qed.
Lemma nth_bits_be n v k : (k < n)%nat -> nth k (bits_be n v) false = Z.testbit v (Z.of_nat (n - 1 - k)).
Proof.
  revert k. induction n as [|n IH]; intros k Hk; [lia|]. cbn [bits_be]. destruct k as [|k]; cbn [nth].
  - f_equal. lia.
  - rewrite IH by lia. f_equal. lia.
Qed.
Lemma bitat_bits p i : 0 <= i < 8 * len p -> bitat p i = znth false i (bits_of_bytes p).
Proof.
  revert i. induction p as [|b p IH]; intros i Hi; [change (len (@nil Z)) with 0 in Hi; lia|].
  unfold bits_of_bytes. cbn [flat_map]. rewrite len_cons in Hi.
  assert (L8 : len (bits_be 8 b) = 8) by reflexivity.
  destruct (Z.lt_ge_cases i 8).
  - rewrite znth_app_l by lia. unfold bitat. replace (i / 8) with 0 by lia. rewrite znth_0.
    unfold znth. rewrite nth_bits_be by lia. f_equal. lia.
  - rewrite znth_app_r by lia. rewrite L8. fold (bits_of_bytes p). rewrite <- IH by lia.
    unfold bitat. rewrite znth_cons by lia. replace ((i - 8) / 8) with (i / 8 - 1) by lia. f_equal. lia.
Qed.
Lemma znth_map {A B} (f : A -> B) d d' l i : 0 <= i < len l -> znth d' i (map f l) = f (znth d i l).
Proof.
  intros H. unfold znth. rewrite (nth_indep (map f l) d' (f d)); [apply map_nth|]. rewrite map_length. unfold len in H. lia.
Qed.
Lemma rev_tail p q i : bytes q -> len q = 12 -> 0 <= i < 85 -> bitat q i = bitat p (84 - i) ->
  Z.testbit (znth 0 (i / 8) (map reverse_byte (take 11 q) ++ drop 11 q)) (i mod 8) = bitat p (84 - i).
Proof.
  intros B A Hi C.
  assert (LT : len (take 11 q) = 11) by (rewrite len_take; lia).
  rewrite znth_app_l by (rewrite len_map; lia).
  rewrite (znth_map _ 0) by lia. rewrite znth_take by lia.
  assert (BQ : byte (znth 0 (i / 8) q)).
  { unfold znth. apply Forall_nth; [exact B|]. unfold len in A. lia. }
  rewrite reverse_byte_spec; [|exact BQ| lia]. rewrite <- C. reflexivity.
Qed.
Lemma glo_rev_spec p n i : n = 43%nat -> len p = 12 -> bytes p -> 0 <= i < 85 ->
  bytes (glo_rev n p) /\ len (glo_rev n p) = 12 /\ bitat (glo_rev n p) i = bitat p (84 - i).
Proof.
  intros Hn HL HB Hi. destruct (glo_fold p n ltac:(lia) ltac:(lia)) as (A & B & C).
  split; [apply B, HB|]. split; [rewrite A; exact HL|]. rewrite C by lia.
  replace ((i <=? 84) && ((i <? Z.of_nat n) || (84 - i <? Z.of_nat n))) with true by lia. reflexivity.
Qed.
Lemma bits3 a b c : bits_of_bytes (be4 a ++ be4 b ++ be4 c) = bits_be 32 a ++ bits_be 32 b ++ bits_be 32 c.
Proof. rewrite !bits_of_bytes_app, !be4_bits. reflexivity. Qed.
Lemma word_bits3 ws i : 3 <= len ws -> 0 <= i < 96 ->
  znth false i (word_bits ws) = znth false i (bits_be 32 (word ws 0) ++ bits_be 32 (word ws 1) ++ bits_be 32 (word ws 2)).
Proof.
  intros Hw Hi. unfold word_bits. rewrite <- (take_drop 3 ws) at 1. rewrite flat_map_app.
  change (take 3 ws) with (take (2 + 1) ws). rewrite word_split by lia.
  change (take 2 ws) with (take (1 + 1) ws). rewrite word_split by lia. change (take 1 ws) with (take (0 + 1) ws). rewrite word_split by lia.
  change (take 0 ws) with (@nil Z). rewrite !flat_map_app. cbn [flat_map]. rewrite !app_nil_r, app_nil_l.
  assert (L32 : forall v, len (bits_be 32 v) = 32) by (intros v; unfold len; rewrite length_bits_be; reflexivity).
  rewrite <- (app_assoc (bits_be 32 (word ws 0))).
  rewrite znth_app_l; [reflexivity|]. rewrite !len_app, !L32. lia.
Qed.
Lemma glo_content_bits ws i : 3 <= len ws -> 0 <= i < 85 ->
  Z.testbit (znth 0 (i / 8) (glo_content ws)) (i mod 8) = znth false (84 - i) (word_bits ws).
Proof.
  intros Hw Hi. unfold glo_content. cbv zeta. change (map Z.of_nat (seq 0 (85 / 2 + 1))) with (map Z.of_nat (seq 0 43)).
  pose proof (eq_refl 43%nat) as HN. revert HN. generalize 43%nat at 1 3 4. intros n HN.
  fold (glo_rev n (be4 (wd ws 0) ++ be4 (wd ws 1) ++ be4 (wd ws 2))).
  assert (HB : bytes (be4 (wd ws 0) ++ be4 (wd ws 1) ++ be4 (wd ws 2))) by (unfold bytes; rewrite !Forall_app; repeat split; apply bytes_be4).
  assert (HL : len (be4 (wd ws 0) ++ be4 (wd ws 1) ++ be4 (wd ws 2)) = 12) by reflexivity.
  pose proof (bits3 (wd ws 0) (wd ws 1) (wd ws 2)) as HV. pose proof (word_bits3 ws (84 - i) Hw ltac:(lia)) as HW.
  unfold wd in *. unfold word in HW. rewrite HW. rewrite <- HV. clear HV HW. revert HB HL. generalize (be4 (znth 0 0 ws) ++ be4 (znth 0 1 ws) ++ be4 (znth 0 2 ws)).
  intros p HB HL. destruct (glo_rev_spec p n i HN HL HB Hi) as (B & A & C). rewrite (rev_tail p) by assumption. apply bitat_bits. lia.
Qed.

(** ** histories *)
Section R.
Variable gps_valid : Z -> list (list Z) -> Z -> bool.
Variable gal_ok : list (list Z) -> bool.
Variable bds_d2 : Z -> bool.
Notation step := (sfrbx_step gps_valid gal_ok bds_d2).
Notation run := (sfrbx_run gps_valid gal_ok bds_d2).
Definition olist {A} (o : option A) : list A := match o with Some x => [x] | None => [] end.

Lemma run_app st h1 h2 st2 os : run st (h1 ++ h2) = Some (st2, os) <->
  exists st1 os1 os2, run st h1 = Some (st1, os1) /\ run st1 h2 = Some (st2, os2) /\ os = os1 ++ os2.
Proof.
  revert st os. induction h1 as [|e h IH]; intros st os; cbn [app sfrbx_run].
  - split.
    + intros H. exists st, [], os. auto.
    + intros (st1 & os1 & os2 & [= <- <-] & H2 & ->). exact H2.
  - destruct (step st e) as [[st1 o]|]; [|split; [discriminate| intros (? & ? & ? & [=] & _)]].
    split.
    + destruct (run st1 (h ++ h2)) as [[st3 os3]|] eqn:E; [|discriminate]. intros [= <- <-]. apply IH in E.
      destruct E as (st4 & o1 & o2 & -> & H2 & ->). exists st4, (match o with Some x => x :: o1 | None => o1 end), o2.
      split; [reflexivity|]. split; [exact H2|]. destruct o; reflexivity.
    + intros (st4 & o1 & o2 & H1 & H2 & ->). destruct (run st1 h) as [[st5 o5]|] eqn:E; [|discriminate]. injection H1 as <- <-.
      assert (Q : run st1 (h ++ h2) = Some (st2, o5 ++ o2)) by (apply IH; exists st5, o5, o2; auto).
      rewrite Q. destruct o; reflexivity.
Qed.
Lemma run_one st e : run st [e] = match step st e with Some (st1, o) => Some (st1, olist o) | None => None end.
Proof. cbn [sfrbx_run]. destruct (step st e) as [[st1 o]|]; [|reflexivity]. destruct o; reflexivity. Qed.
Lemma run_snoc st h e st2 os : run st (h ++ [e]) = Some (st2, os) <->
  exists st1 os1 o, run st h = Some (st1, os1) /\ step st1 e = Some (st2, o) /\ os = os1 ++ olist o.
Proof.
  rewrite run_app. split.
  - intros (st1 & o1 & o2 & H1 & H2 & ->). rewrite run_one in H2. destruct (step st1 e) as [[s o]|] eqn:E; [|discriminate]. injection H2 as <- <-.
    exists st1, o1, o. auto.
  - intros (st1 & o1 & o & H1 & H2 & ->). exists st1, o1, (olist o). rewrite run_one, H2. auto.
Qed.
Lemma side_init p : side_inv bds_d2 ephst_init p.
Proof. split; [reflexivity|]. split; [intros ? ? ? ? _ _ [=]| intros ? ? [=]]. Qed.
Lemma slots_init g p j : slots_of ephst_init g p j = None.
Proof. unfold slots_of. destruct (g =? 0); [reflexivity|]. destruct (g =? 3); [reflexivity|]. destruct (g =? 2); reflexivity. Qed.
Lemma run_side h : forall st os, run ephst_init h = Some (st, os) -> forall p, side_inv bds_d2 st p.
Proof.
  induction h as [|e h IH] using rev_ind; intros st os.
  - cbn. intros [= <- _]. apply side_init.
  - rewrite run_snoc. intros (st1 & o1 & o & H1 & H2 & _). apply (step_spec _ _ _ _ _ _ _ (IH _ _ H1) H2).
Qed.
(** satellites outside the constellation's PRN range never store anything *)
Lemma run_range h : forall st os, run ephst_init h = Some (st, os) -> forall g p, eph_gnss g -> ~ in_range g p -> forall j, slots_of st g p j = None.
Proof.
  induction h as [|e h IH] using rev_ind; intros st os.
  - cbn. intros [= <- _] g p _ _ j. apply slots_init.
  - rewrite run_snoc. intros (st1 & o1 & o & H1 & H2 & _) g p Hg N j.
    destruct (step_spec _ _ _ _ _ _ _ (run_side _ _ _ H1) H2) as [_ S]. destruct (S g p Hg) as [SA SB].
    destruct (sat_dec (ev_gnss e) (ev_prn e) g p) as [E|E].
    + specialize (SB E). destruct o as [x|]; [tauto|]. destruct SB as [[_ ->] | [R _]]; [|contradiction]. apply (IH _ _ H1); assumption.
    + destruct SA as [-> _]; [unfold from_sat; tauto|]. apply (IH _ _ H1); assumption.
Qed.

Lemma latest_here g p j h e : from_sat g p e -> is_part g j (ev_words e) -> latest g p j (h ++ [e]) e.
Proof. intros. exists h, []. repeat split; try assumption; try reflexivity; try apply H. intros x []. Qed.
Lemma latest_keep g p j h e x : latest g p j h e -> ~ (from_sat g p x /\ is_part g j (ev_words x)) -> latest g p j (h ++ [x]) e.
Proof.
  intros (a & b & -> & F & P & N) H. exists a, (b ++ [x]). split; [rewrite <- app_assoc; reflexivity|]. split; [exact F|]. split; [exact P|].
  intros y Hy Fy. apply in_app_or in Hy. destruct Hy as [Hy | [<- | []]]; [apply N; assumption|]. tauto.
Qed.
Lemma fresh_latest g p st mid e j w : eph_gnss g -> from_sat g p e ->
  (forall j w, slots_of st g p j = Some w -> exists e, latest g p (j + 1) mid e /\ w = stored g (ev_words e)) ->
  fresh g (slots_of st g p) (ev_words e) j w -> exists e', latest g p (j + 1) (mid ++ [e]) e' /\ w = stored g (ev_words e').
Proof.
  intros Hg F I [[P ->] | [S P]].
  - exists e. split; [|reflexivity]. apply latest_here; [exact F|]. apply part_index_spec; assumption.
  - destruct (I j w S) as (e' & L & ->). exists e'. split; [|reflexivity]. apply latest_keep; [exact L|].
    intros [_ Q]. apply part_index_spec in Q; [|exact Hg]. contradiction.
Qed.

(** the buffer of a satellite holds, for each part, nothing or the newest one received since a point after
    which no ephemeris of that satellite was produced *)
Lemma run_inv g p h : eph_gnss g -> forall st os, run ephst_init h = Some (st, os) ->
  exists pre mid st0 os0 os1, h = pre ++ mid /\ run ephst_init pre = Some (st0, os0) /\ run st0 mid = Some (st, os1) /\
    (forall x, In x os1 -> out_sat x <> (g, p)) /\
    (pre = [] \/ exists pre' e st1 os2 x, pre = pre' ++ [e] /\ run ephst_init pre' = Some (st1, os2) /\ step st1 e = Some (st0, Some x) /\ out_sat x = (g, p)) /\
    (forall j w, slots_of st g p j = Some w -> exists e, latest g p (j + 1) mid e /\ w = stored g (ev_words e)).
Proof.
  intros Hg. induction h as [|e h IH] using rev_ind; intros st os.
  - cbn. intros [= <- <-]. exists [], [], ephst_init, [], []. repeat split; try reflexivity; auto.
    intros j w H. rewrite slots_init in H. discriminate.
  - intros HR. pose proof HR as HR0. rewrite run_snoc in HR. destruct HR as (st1 & o1 & o & H1 & H2 & ->).
    destruct (IH _ _ H1) as (pre & mid & st0 & os0 & os1 & -> & HA & HB & HC & HP & HI). clear IH.
    destruct (step_spec _ _ _ _ _ _ _ (run_side _ _ _ H1) H2) as [_ S]. destruct (S g p Hg) as [SA SB]. clear S.
    destruct (sat_dec (ev_gnss e) (ev_prn e) g p) as [E|E].
    + specialize (SB E). destruct o as [x|].
      * destruct SB as (_ & OS & NS & _). exists ((pre ++ mid) ++ [e]), [], st, (o1 ++ [x]), [].
        split; [rewrite app_nil_r; reflexivity|]. split; [exact HR0|]. split; [reflexivity|]. split; [intros ? []|]. split.
        { right. exists (pre ++ mid), e, st1, o1, x. auto. }
        intros j w H. rewrite NS in H. discriminate.
      * exists pre, (mid ++ [e]), st0, os0, os1. split; [rewrite app_assoc; reflexivity|]. split; [exact HA|]. split.
        { apply run_snoc. exists st1, os1, None. split; [exact HB|]. split; [exact H2|]. rewrite app_nil_r. reflexivity. }
        split; [exact HC|]. split; [exact HP|]. intros j w H. destruct SB as [[NR Q] | [_ FR]].
        { rewrite Q, (run_range _ _ _ H1) in H by assumption. discriminate. }
        apply (fresh_latest g p st1); try assumption. apply FR, H.
    + destruct SA as [SQ SX]; [unfold from_sat; tauto|]. exists pre, (mid ++ [e]), st0, os0, (os1 ++ olist o). split; [rewrite app_assoc; reflexivity|]. split; [exact HA|]. split.
      { apply run_snoc. exists st1, os1, o. auto. }
      split.
      { intros x Hx. apply in_app_or in Hx. destruct Hx as [Hx|Hx]; [apply HC, Hx|]. destruct o as [y|]; [|destruct Hx].
        destruct Hx as [<- | []]. apply SX. reflexivity. }
      split; [exact HP|]. intros j w H. rewrite SQ in H. destruct (HI j w H) as (e' & L & ->). exists e'. split; [|reflexivity].
      apply latest_keep; [exact L|]. unfold from_sat. tauto.
Qed.

Lemma stored_field g ws k a n : 0 <= k < 8 -> field_of (stored g ws) k a n = field_of ws k a n.
Proof. intros. unfold field_of, word, stored. destruct (g =? 2); [|reflexivity]. rewrite znth_take by lia. reflexivity. Qed.
Lemma list_by_index {A} (P : Z -> A -> Prop) (n : nat) : (forall j, 0 <= j < Z.of_nat n -> exists x, P j x) ->
  exists l, length l = n /\ forall j d, 0 <= j < Z.of_nat n -> P j (znth d j l).
Proof.
  induction n as [|n IH]; intros H.
  - exists []. split; [reflexivity|]. intros. lia.
  - destruct IH as (l & HL & HP); [intros; apply H; lia|]. destruct (H (Z.of_nat n) ltac:(lia)) as [x Hx].
    exists (l ++ [x]). split; [rewrite app_length; cbn; lia|]. intros j d Hj. destruct (Z.eq_dec j (Z.of_nat n)) as [->|].
    + rewrite znth_app_r by (unfold len; lia). unfold len. replace (Z.of_nat n - Z.of_nat (length l)) with 0 by lia. exact Hx.
    + rewrite znth_app_l by (unfold len; lia). apply HP. lia.
Qed.
Lemma gps_tow_ok sf1 tow : gps_tow sf1 = Some tow -> gps_time_ok sf1 tow.
Proof.
  unfold gps_tow, gps_time_ok. rewrite (fld_spec sf1 1 13 0x1ffff 17) by (try reflexivity; lia).
  pose proof (field_range sf1 1 13 17 ltac:(lia)). destruct (field_of sf1 1 13 17 =? 0) eqn:E; [intros [= <-]; lia|].
  change (604800 / 6) with 100800. destruct (field_of sf1 1 13 17 <? 100800) eqn:E1; [|discriminate]. intros [= <-].
  set (t := field_of sf1 1 13 17) in *. clearbody t.
  split; [lia|]. split; [lia|]. replace ((t - 1) * 6 + 6) with (t * 6) by lia. apply Z.mod_small. lia.
Qed.
Lemma made_conveys g p o fcn (evs : list sfevent) : eph_gnss g -> out_sat o = (g, p) ->
  len evs = parts_needed g -> (forall j d, 0 <= j < parts_needed g -> is_part g (j + 1) (ev_words (znth d j evs))) ->
  made_of o fcn (map (fun e => stored g (ev_words e)) evs) -> conveys o fcn (map ev_words evs).
Proof.
  intros Hg HO HL HP. destruct o as [q t fr | q fr | q pg | q f ss | q t m d]; cbn [out_sat made_of conveys] in *.
  - injection HO as <- <-. unfold stored. cbn [Z.eqb Pos.eqb]. intros [-> HT]. split; [reflexivity|]. apply gps_tow_ok, HT.
  - injection HO as <- <-. unfold stored. cbn [Z.eqb Pos.eqb]. auto.
  - injection HO as <- <-. unfold stored. cbn [Z.eqb Pos.eqb]. intros ->. rewrite !map_map. apply map_ext_in. intros e He.
    rewrite content_take. apply gal_content_bits. apply (In_nth _ _ e) in He. destruct He as (k & Hk & He).
    change (parts_needed 2) with 5 in *. specialize (HP (Z.of_nat k) e ltac:(unfold len in HL; lia)).
    unfold znth in HP. rewrite Nat2Z.id, He in HP. unfold is_part in HP. cbn [Z.eqb Pos.eqb] in HP. lia.
  - injection HO as <- <-. unfold stored. cbn [Z.eqb Pos.eqb]. intros [-> ->]. split; [reflexivity|]. split; [rewrite !map_length; reflexivity|].
    intros k i Hk Hi. rewrite len_map in Hk. change (parts_needed 6) with 5 in *.
    pose (d := mk_sfevent 0 0 0 [] false 0).
    rewrite map_map, (znth_map _ d) by lia. rewrite (znth_map _ d) by lia. apply glo_content_bits; [|lia].
    specialize (HP k d ltac:(lia)). unfold is_part in HP. cbn [Z.eqb Pos.eqb] in HP. lia.
  - intros [].
Qed.
Lemma same_issue_stored g (evs : list sfevent) : eph_gnss g -> len evs = parts_needed g ->
  same_issue g (map (fun e => stored g (ev_words e)) evs) -> same_issue g (map ev_words evs).
Proof.
  intros Hg HL H. destruct (g =? 2) eqn:E2.
  - assert (g = 2) by lia. subst g. change (parts_needed 2) with 5 in HL. unfold same_issue in *. cbn [Z.eqb Pos.eqb] in *. pose (d := mk_sfevent 0 0 0 [] false 0).
    intros k Hk. specialize (H k Hk). rewrite !(znth_map _ d) in H by lia. rewrite !stored_field in H by lia. rewrite !(znth_map _ d) by lia. exact H.
  - unfold stored in H. rewrite E2 in H. exact H.
Qed.

Theorem assembled h st os e st' o : run ephst_init h = Some (st, os) -> step st e = Some (st', Some o) -> fst (out_sat o) <> 1 ->
  let g := ev_gnss e in let p := ev_prn e in
  out_sat o = (g, p) /\
  exists pre mid st0 os0 os1 evs, h = pre ++ mid /\ run ephst_init pre = Some (st0, os0) /\ run st0 mid = Some (st, os1) /\
    (forall x, In x os1 -> out_sat x <> (g, p)) /\
    len evs = parts_needed g /\
    (forall j d, 0 <= j < parts_needed g -> latest g p (j + 1) (mid ++ [e]) (znth d j evs)) /\
    same_issue g (map ev_words evs) /\ conveys o (ev_fcn e) (map ev_words evs).
Proof.
  intros HR HS HO g p.
  destruct (step_spec _ _ _ _ _ _ _ (run_side _ _ _ HR) HS) as [_ S].
  assert (Hg : eph_gnss (fst (out_sat o))) by (unfold eph_gnss; destruct o; cbn [out_sat fst] in *; lia).
  assert (OS : out_sat o = (g, p)).
  { destruct (out_sat o) as [g' p'] eqn:EO. cbn [fst] in *. destruct (S g' p' Hg) as [SA SB].
    destruct (sat_dec (ev_gnss e) (ev_prn e) g' p') as [[<- <-]|E]; [reflexivity|].
    destruct SA as [_ SX]; [unfold from_sat; tauto|]. exfalso. exact (SX o eq_refl EO). }
  split; [exact OS|]. rewrite OS in Hg. cbn [fst] in Hg.
  destruct (S g p Hg) as [_ SB]. destruct SB as (_ & _ & _ & parts & PL & PF & PS & PM); [split; reflexivity|]. clear S.
  destruct (run_inv g p h Hg _ _ HR) as (pre & mid & st0 & os0 & os1 & -> & HA & HB & HC & _ & HI).
  assert (PN : 0 <= parts_needed g) by (unfold parts_needed; destruct (_ || _); lia).
  destruct (list_by_index (fun j e' => latest g p (j + 1) (mid ++ [e]) e' /\ znth [] j parts = stored g (ev_words e')) (Z.to_nat (parts_needed g))) as (evs & EL & EP).
  { intros j Hj. apply (fresh_latest g p st); [exact Hg| split; reflexivity| exact HI|]. apply PF. lia. }
  assert (ELZ : len evs = parts_needed g) by (unfold len; lia).
  exists pre, mid, st0, os0, os1, evs. split; [reflexivity|]. split; [exact HA|]. split; [exact HB|]. split; [exact HC|]. split; [exact ELZ|].
  assert (EPL : forall j d, 0 <= j < parts_needed g -> latest g p (j + 1) (mid ++ [e]) (znth d j evs)) by (intros j d Hj; apply EP; lia).
  split; [exact EPL|].
  assert (PQ : parts = map (fun e => stored g (ev_words e)) evs).
  { apply (nth_ext _ _ [] []).
    - rewrite map_length. unfold len in *. lia.
    - intros k Hk. destruct (EP (Z.of_nat k) e ltac:(unfold len in *; lia)) as [_ Q]. unfold znth in Q. rewrite Nat2Z.id in Q. rewrite Q.
      rewrite (nth_indep (map _ evs) [] (stored g (ev_words e))) by (rewrite map_length; unfold len in *; lia).
      rewrite (map_nth (fun e => stored g (ev_words e)) evs e k). reflexivity. }
  subst parts. split.
  - apply same_issue_stored; assumption.
  - apply (made_conveys g p); try assumption. intros j d Hj. destruct (EPL j d Hj) as (a & b & _ & _ & Q & _). exact Q.
Qed.
End R.
