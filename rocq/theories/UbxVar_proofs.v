(** The variable-length UBX messages: each decoder and encoder form a codec. *)
From Verif Require Import Base Bits_model Bytestream_model Bytestream_proofs UbxMsg_proofs UbxVar_model.

Lemma bind_array {A B} (d : bdec A) cap n (f : list A -> bdec B) l : Z.of_nat n <= cap ->
  bbind (get_array cap 0 n d) f l = bbind (get_n n d) f l.
Proof. intros H. unfold bbind. now rewrite get_array_get_n by lia. Qed.
Lemma take_max {A} k (xs : list A) : len xs = Z.max 0 k -> take k xs = xs.
Proof. intros H. destruct (Z.le_gt_cases 0 k); [apply take_all; lia|]. rewrite (len_zero_nil xs) by lia. unfold take. now rewrite firstn_nil. Qed.
Lemma n_fwd' {A B} (d : bdec A) e P k (f : list A -> bdec B) xs r : codec d e P -> Forall P xs -> len xs = Z.max 0 k ->
  bbind (get_n (Z.to_nat k) d) f (flat_map e (take k xs) ++ r) = f xs r.
Proof.
  intros C H Hl. rewrite take_max by exact Hl. apply bbind_ok. apply (get_n_codec d e P _ C). split; [exact H|]. unfold len in Hl. lia.
Qed.
Lemma n_inv' {A B} (d : bdec A) e P k (f : list A -> bdec B) l b r : codec d e P -> bytes l -> bbind (get_n (Z.to_nat k) d) f l = Ok (b, r) ->
  exists v l1, l = flat_map e (take k v) ++ l1 /\ (Forall P v /\ len v = Z.max 0 k) /\ bytes l1 /\ f v l1 = Ok (b, r).
Proof.
  intros C Hl H. apply (n_inv d e P _ _ _ _ _ C Hl) in H. destruct H as (v & l1 & -> & [Hv Hn] & Hb & H).
  exists v, l1. rewrite take_max by lia. repeat split; try assumption. lia.
Qed.

Lemma rawx_meas_codec : codec decode_rawx_meas encode_rawx_meas rawx_meas_fits.
Proof.
  split; [|split].
  - intros m r H. unfold rawx_meas_fits in H. all_ands. unfold encode_rawx_meas, decode_rawx_meas. rewrite <- !app_assoc. fwd. destruct m; reflexivity.
  - intros l m r Hl H. unfold decode_rawx_meas in H. repeat bwd1. finish_bwd. split.
    + unfold encode_rawx_meas. rewrite <- !app_assoc. reflexivity.
    + unfold rawx_meas_fits. conj.
  - intros l Hl. unfold decode_rawx_meas. repeat nub1.
Qed.
Lemma ufits1 v : ufits 1 v -> 0 <= v <= 255. Proof. unfold ufits. change (256 ^ Z.of_nat 1) with 256. lia. Qed.
Lemma ufits2 v : ufits 2 v -> 0 <= v <= 65535. Proof. unfold ufits. change (256 ^ Z.of_nat 2) with 65536. lia. Qed.
Lemma rawx_codec : codec decode_rawx encode_rawx rawx_fits.
Proof.
  split; [|split].
  - intros m r H. unfold rawx_fits in H. all_ands. assert (0 <= rx_num_meas m <= 255) by now apply ufits1.
    assert (ufits 1 (rx_class_id m)) by (rewrite H; unfold ufits; cbn; lia).
    assert (ufits 1 (rx_msg_id m)) by (rewrite H0; unfold ufits; cbn; lia).
    unfold encode_rawx, decode_rawx. rewrite <- !app_assoc. fwd.
    rewrite bind_array by (unfold UBX_MAX_NUM_OBS; lia). rewrite (n_fwd' _ _ _ _ _ _ _ rawx_meas_codec) by (assumption || lia). destruct m; reflexivity.
  - intros l m r Hl H. unfold decode_rawx in H. repeat bwd1. 
    match goal with H0 : ufits 1 ?k, H : bbind (get_array _ 0 (Z.to_nat ?k) _) _ _ = _ |- _ => apply ufits1 in H0 as Hk; rewrite bind_array in H by (unfold UBX_MAX_NUM_OBS; lia) end.
    match goal with Hl : bytes ?l, H : bbind _ _ ?l = Ok _ |- _ => apply (n_inv' _ _ _ _ _ _ _ _ rawx_meas_codec Hl) in H; destruct H as (? & ? & -> & [? ?] & ? & H) end.
    finish_bwd. split.
    + unfold encode_rawx. cbn [rx_class_id rx_msg_id rx_length rx_rcv_tow rx_rcv_wn rx_leap_second rx_num_meas rx_rec_status rx_version rx_reserved1 rx_meas].
      rewrite (take_all 2) by lia. rewrite <- !app_assoc. reflexivity.
    + unfold rawx_fits. cbn [rx_class_id rx_msg_id rx_length rx_rcv_tow rx_rcv_wn rx_leap_second rx_num_meas rx_rec_status rx_version rx_reserved1 rx_meas].
      repeat match goal with |- _ /\ _ => split end; try assumption; lia.
  - intros l Hl. unfold decode_rawx. repeat nub1.
    match goal with H0 : ufits 1 ?k |- bbind (get_array _ 0 (Z.to_nat ?k) _) _ _ <> _ => apply ufits1 in H0 as Hk; rewrite bind_array by (unfold UBX_MAX_NUM_OBS; lia) end.
    apply (n_nub _ _ _ _ _ _ rawx_meas_codec); [assumption|]. discriminate.
Qed.

Lemma nav_sat_data_codec : codec decode_nav_sat_data encode_nav_sat_data nav_sat_data_fits.
Proof.
  split; [|split].
  - intros m r H. unfold nav_sat_data_fits in H. all_ands. unfold encode_nav_sat_data, decode_nav_sat_data. rewrite <- !app_assoc. fwd. destruct m; reflexivity.
  - intros l m r Hl H. unfold decode_nav_sat_data in H. repeat bwd1. finish_bwd. split.
    + unfold encode_nav_sat_data. rewrite <- !app_assoc. reflexivity.
    + unfold nav_sat_data_fits. conj.
  - intros l Hl. unfold decode_nav_sat_data. repeat nub1.
Qed.
Lemma nav_sat_loop_n n : forall i l, 0 <= i <= 100 -> nav_sat_loop i n l = get_n (Z.to_nat (Z.min (Z.of_nat n) (100 - i))) decode_nav_sat_data l.
Proof.
  induction n as [|n IH]; intros i l Hi; cbn [nav_sat_loop].
  - replace (Z.to_nat _) with 0%nat by lia. reflexivity.
  - unfold NAV_DATA_MAX_COUNT. destruct (Z.leb_spec 100 i).
    + replace (Z.to_nat _) with 0%nat by lia. reflexivity.
    + replace (Z.to_nat (Z.min (Z.of_nat (S n)) (100 - i))) with (S (Z.to_nat (Z.min (Z.of_nat n) (100 - (i + 1))))) by lia.
      cbn [get_n]. unfold bbind. destruct (decode_nav_sat_data l) as [[a r]| | |]; try reflexivity. now rewrite IH by lia.
Qed.
Lemma bind_nav_sat {B} n (f : list nav_sat_data -> bdec B) l : 0 <= n ->
  bbind (nav_sat_loop 0 (Z.to_nat n)) f l = bbind (get_n (Z.to_nat (Z.min n 100)) decode_nav_sat_data) f l.
Proof. intros H. unfold bbind. rewrite nav_sat_loop_n by lia. replace (Z.min (Z.of_nat (Z.to_nat n)) (100 - 0)) with (Z.min n 100) by lia. reflexivity. Qed.
Lemma nav_sat_codec : codec decode_nav_sat encode_nav_sat nav_sat_fits.
Proof.
  split; [|split].
  - intros m r H. unfold nav_sat_fits in H. all_ands. assert (0 <= nst_num_svs m <= 255) by now apply ufits1.
    assert (ufits 1 (nst_class_id m)) by (rewrite H; unfold ufits; cbn; lia).
    assert (ufits 1 (nst_msg_id m)) by (rewrite H0; unfold ufits; cbn; lia).
    unfold encode_nav_sat, decode_nav_sat. rewrite <- !app_assoc. fwd.
    rewrite bind_nav_sat by lia. unfold NAV_DATA_MAX_COUNT. rewrite (n_fwd' _ _ _ _ _ _ _ nav_sat_data_codec) by (assumption || lia). destruct m; reflexivity.
  - intros l m r Hl H. unfold decode_nav_sat in H. repeat bwd1.
    match goal with H0 : ufits 1 ?k, H : bbind (nav_sat_loop _ (Z.to_nat ?k)) _ _ = _ |- _ => apply ufits1 in H0 as Hk; rewrite bind_nav_sat in H by lia end.
    match goal with Hl : bytes ?l, H : bbind _ _ ?l = Ok _ |- _ => apply (n_inv' _ _ _ _ _ _ _ _ nav_sat_data_codec Hl) in H; destruct H as (? & ? & -> & [? ?] & ? & H) end.
    finish_bwd. split.
    + unfold encode_nav_sat. cbn [nst_class_id nst_msg_id nst_length nst_i_tow nst_version nst_num_svs nst_reserved1 nst_data].
      rewrite <- !app_assoc. reflexivity.
    + unfold nav_sat_fits. cbn [nst_class_id nst_msg_id nst_length nst_i_tow nst_version nst_num_svs nst_reserved1 nst_data].
      repeat match goal with |- _ /\ _ => split end; try assumption; lia.
  - intros l Hl. unfold decode_nav_sat. repeat nub1.
    match goal with H0 : ufits 1 ?k |- bbind (nav_sat_loop _ (Z.to_nat ?k)) _ _ <> _ => apply ufits1 in H0 as Hk; rewrite bind_nav_sat by lia end.
    apply (n_nub _ _ _ _ _ _ nav_sat_data_codec); [assumption|]. discriminate.
Qed.

Lemma sfrbx_codec : codec decode_sfrbx encode_sfrbx sfrbx_fits.
Proof.
  split; [|split].
  - intros m r H. unfold sfrbx_fits in H. destruct H as (H & H0 & ? & ? & ? & ? & ? & Hn & ? & ? & ? & ? & ?).
    assert (ufits 1 (sf_class_id m)) by (rewrite H; unfold ufits; cbn; lia).
    assert (ufits 1 (sf_msg_id m)) by (rewrite H0; unfold ufits; cbn; lia).
    assert (ufits 1 (sf_num_words m)) by (unfold ufits; change (256 ^ Z.of_nat 1) with 256; lia).
    unfold encode_sfrbx, decode_sfrbx. rewrite <- !app_assoc. fwd. unfold UBX_RXM_SFRBX_MAX_DATA_WORDS.
    destruct (Z.ltb_spec 10 (sf_num_words m)); [lia|]. rewrite bind_array by lia.
    rewrite (n_fwd' _ _ _ _ _ _ _ (getu_codec 4)) by (assumption || lia). destruct m; reflexivity.
  - intros l m r Hl H. unfold decode_sfrbx in H. repeat bwd1. unfold UBX_RXM_SFRBX_MAX_DATA_WORDS in H.
    match type of H with context [10 <? ?k] => destruct (Z.ltb_spec 10 k) as [|Hk]; [discriminate|]; assert (0 <= k) by (match goal with H0 : ufits 1 k |- _ => apply ufits1 in H0; lia end) end.
    rewrite bind_array in H by lia.
    match goal with Hl : bytes ?l, H : bbind _ _ ?l = Ok _ |- _ => apply (n_inv' _ _ _ _ _ _ _ _ (getu_codec 4) Hl) in H; destruct H as (? & ? & -> & [? ?] & ? & H) end.
    finish_bwd. split.
    + unfold encode_sfrbx. cbn [sf_class_id sf_msg_id sf_length sf_gnss_id sf_sat_id sf_reserved1 sf_freq_id sf_num_words sf_channel sf_version sf_reserved2 sf_words].
      rewrite <- !app_assoc. reflexivity.
    + unfold sfrbx_fits. cbn [sf_class_id sf_msg_id sf_length sf_gnss_id sf_sat_id sf_reserved1 sf_freq_id sf_num_words sf_channel sf_version sf_reserved2 sf_words].
      repeat match goal with |- _ /\ _ => split end; try assumption; lia.
  - intros l Hl. unfold decode_sfrbx. repeat nub1. unfold UBX_RXM_SFRBX_MAX_DATA_WORDS.
    match goal with |- context [10 <? ?k] => destruct (Z.ltb_spec 10 k) as [|Hk]; [discriminate|] end. rewrite bind_array by lia.
    apply (n_nub _ _ _ _ _ _ (getu_codec 4)); [assumption|]. discriminate.
Qed.

Lemma esf_num_meas_spec f : 0 <= f -> esf_num_meas f = f / 2048 mod 32.
Proof.
  intros. unfold esf_num_meas. change 0x1F with (Z.ones 5). rewrite Z.land_ones by lia. rewrite Z.shiftr_div_pow2 by lia. reflexivity.
Qed.
Lemma esf_has_calib_spec f : 0 <= f -> esf_has_calib f = (f / 8 mod 2 =? 1).
Proof.
  intros H. unfold esf_has_calib.
  assert (E : Z.land f 8 = 8 * (f / 8 mod 2)).
  { apply Z.bits_inj'. intros n Hn. rewrite Z.land_spec. change 8 with (2 ^ 3) at 1. rewrite Z.pow2_bits_eqb by lia.
    rewrite (Z.mul_comm 8). change 8 with (2 ^ 3). rewrite Z.mul_pow2_bits by lia.
    destruct (Z.eqb_spec 3 n) as [<-|Hne].
    - replace (3 - 3) with 0 by lia. rewrite andb_true_r. rewrite <- Z.bit0_mod. rewrite <- Z.shiftr_div_pow2 by lia. rewrite Z.shiftr_spec by lia.
      rewrite Z.b2z_bit0. f_equal.
    - rewrite andb_false_r. symmetry. rewrite <- Z.bit0_mod.
      destruct (Z.le_gt_cases 0 (n - 3)); [|apply Z.testbit_neg_r; lia].
      rewrite <- (Z.mul_1_r (Z.b2z _)). destruct (Z.testbit (f / 2 ^ 3) 0); cbn [Z.b2z]; [|apply Z.testbit_0_l].
      change (1 * 1) with (2 ^ 0). rewrite Z.pow2_bits_false by lia. reflexivity. }
  rewrite E. pose proof (Z.mod_pos_bound (f / 8) 2 ltac:(lia)). destruct (Z.eqb_spec (f / 8 mod 2) 1); destruct (Z.eqb_spec (8 * (f / 8 mod 2)) 0); cbn; try reflexivity; lia.
Qed.
Lemma esf_meas_codec : codec decode_esf_meas encode_esf_meas esf_meas_fits.
Proof.
  split; [|split].
  - intros m r H. unfold esf_meas_fits in H. destruct H as (H & H0 & ? & ? & ? & ? & ? & Hn & Hc). pose proof (ufits2 (em_flags m) ltac:(assumption)).
    assert (ufits 1 (em_class_id m)) by (rewrite H; unfold ufits; cbn; lia).
    assert (ufits 1 (em_msg_id m)) by (rewrite H0; unfold ufits; cbn; lia).
    pose proof (Z.mod_pos_bound (em_flags m / 2048) 32 ltac:(lia)) as Hb.
    unfold encode_esf_meas, decode_esf_meas. rewrite <- !app_assoc. fwd. rewrite esf_num_meas_spec, esf_has_calib_spec by lia.
    rewrite bind_array by (unfold ESF_DATA_MAX_COUNT; lia).
    rewrite (n_fwd' _ _ _ _ _ _ _ (getu_codec 4)) by (assumption || lia).
    destruct (em_flags m / 8 mod 2 =? 1).
    + destruct Hc as (c & Hc & Hcf). rewrite Hc. unfold bbind at 1. rewrite u_fwd by assumption. unfold bret. destruct m; cbn in Hc |- *. now rewrite Hc.
    + unfold bbind, bret. cbn [app]. destruct m; cbn in Hc |- *. now rewrite Hc.
  - intros l m r Hl H. unfold decode_esf_meas in H. repeat bwd1.
    match type of H with context [esf_num_meas ?f] => pose proof (ufits2 f ltac:(assumption)) as Hf; rewrite (esf_num_meas_spec f), (esf_has_calib_spec f) in H by lia;
      pose proof (Z.mod_pos_bound (f / 2048) 32 ltac:(lia)) as Hb; pose proof (esf_num_meas_spec f ltac:(lia)) as Hnm; pose proof (esf_has_calib_spec f ltac:(lia)) as Hcal end.
    rewrite bind_array in H by (unfold ESF_DATA_MAX_COUNT; lia).
    match goal with Hl : bytes ?l, H : bbind _ _ ?l = Ok _ |- _ => apply (n_inv' _ _ _ _ _ _ _ _ (getu_codec 4) Hl) in H; destruct H as (? & ? & -> & [? ?] & ? & H) end.
    apply bbind_inv in H. destruct H as (cal & l2 & Ec & H).
    match type of Ec with (if ?b then _ else _) _ = _ => destruct b eqn:Hb1 end.
    + apply (u_inv 4) in Ec; [|assumption]. destruct Ec as (c & ? & -> & ? & ? & Ec). unfold bret in Ec. assert (cal = Some c) as -> by congruence.
      match goal with H : Ok (_, ?a) = Ok (_, ?b) |- _ => assert (a = b) as -> by congruence end.
      finish_bwd. split.
      * unfold encode_esf_meas. cbn [em_class_id em_msg_id em_length em_time_tag em_flags em_id em_data em_calib]. rewrite Hnm, Hcal. rewrite <- !app_assoc. reflexivity.
      * unfold esf_meas_fits. cbn [em_class_id em_msg_id em_length em_time_tag em_flags em_id em_data em_calib]. rewrite Hb1.
        repeat match goal with |- _ /\ _ => split end; try assumption; try lia. now exists c.
    + unfold bret in Ec. assert (cal = None) as -> by congruence. match goal with H : Ok (_, ?a) = Ok (_, ?b) |- _ => assert (a = b) as -> by congruence end.
      finish_bwd. split.
      * unfold encode_esf_meas. cbn [em_class_id em_msg_id em_length em_time_tag em_flags em_id em_data em_calib]. rewrite Hnm, Hcal. rewrite <- !app_assoc. reflexivity.
      * unfold esf_meas_fits. cbn [em_class_id em_msg_id em_length em_time_tag em_flags em_id em_data em_calib]. rewrite Hb1.
        repeat match goal with |- _ /\ _ => split end; try assumption; try lia. reflexivity.
  - intros l Hl. unfold decode_esf_meas. repeat nub1.
    match goal with |- context [esf_num_meas ?f] => pose proof (ufits2 f ltac:(assumption)) as Hf; rewrite (esf_num_meas_spec f) by lia;
      pose proof (Z.mod_pos_bound (f / 2048) 32 ltac:(lia)) as Hb end.
    rewrite bind_array by (unfold ESF_DATA_MAX_COUNT; lia).
    apply (n_nub _ _ _ _ _ _ (getu_codec 4)); [assumption|]. intros. apply bbind_no_ub; [|discriminate].
    destruct (esf_has_calib _); [apply u_nub; [assumption|]; discriminate|discriminate].
Qed.

Lemma esf_raw_data_codec : codec decode_esf_raw_data encode_esf_raw_data (fun p => ufits 4 (fst p) /\ ufits 4 (snd p)).
Proof.
  split; [|split].
  - intros [a b] r [H1 H2]. cbn [fst snd] in *. unfold encode_esf_raw_data, decode_esf_raw_data. cbn [fst snd]. rewrite <- !app_assoc. fwd. reflexivity.
  - intros l m r Hl H. unfold decode_esf_raw_data in H. repeat bwd1. finish_bwd. split.
    + unfold encode_esf_raw_data. rewrite <- !app_assoc. reflexivity.
    + cbn [fst snd]. conj.
  - intros l Hl. unfold decode_esf_raw_data. repeat nub1.
Qed.
Lemma esf_raw_count_spec k : 0 <= k -> Z.max 0 (esf_raw_count k) = Z.max 0 ((k - 4) / 8).
Proof. intros H. unfold esf_raw_count. destruct (Z.le_gt_cases 4 k); [rewrite Z.quot_div_nonneg by lia; reflexivity|]. 
  assert (k = 0 \/ k = 1 \/ k = 2 \/ k = 3) as [-> | [-> | [-> | ->]]] by lia; reflexivity.
Qed.
Lemma esf_raw_codec : codec decode_esf_raw encode_esf_raw esf_raw_fits.
Proof.
  split; [|split].
  - intros m r H. unfold esf_raw_fits in H. destruct H as (H & H0 & H1 & H2 & H3 & Hn & Hm). pose proof (ufits2 _ H1).
    assert (ufits 1 (er_class_id m)) by (rewrite H; unfold ufits; cbn; lia).
    assert (ufits 1 (er_msg_id m)) by (rewrite H0; unfold ufits; cbn; lia).
    unfold encode_esf_raw, decode_esf_raw. rewrite <- !app_assoc. fwd. unfold ESF_DATA_MAX_COUNT.
    rewrite <- esf_raw_count_spec in Hn by lia. destruct (Z.ltb_spec 128 (esf_raw_count (er_length m))); [lia|]. fwd.
    rewrite bind_array by lia. rewrite (n_fwd' _ _ _ _ _ _ _ esf_raw_data_codec) by (assumption || lia). destruct m; reflexivity.
  - intros l m r Hl H. unfold decode_esf_raw in H. repeat bwd1. unfold ESF_DATA_MAX_COUNT in H.
    match type of H with context [128 <? esf_raw_count ?k] => destruct (Z.ltb_spec 128 (esf_raw_count k)) as [|Hk]; [discriminate|]; pose proof (ufits2 k ltac:(assumption)) as Hf; pose proof (esf_raw_count_spec k ltac:(lia)) as Hc end.
    repeat bwd1. rewrite bind_array in H by lia.
    match goal with Hl : bytes ?l, H : bbind _ _ ?l = Ok _ |- _ => apply (n_inv' _ _ _ _ _ _ _ _ esf_raw_data_codec Hl) in H; destruct H as (? & ? & -> & [? ?] & ? & H) end.
    finish_bwd. split.
    + unfold encode_esf_raw. cbn [er_class_id er_msg_id er_length er_msss er_data]. rewrite <- !app_assoc. reflexivity.
    + unfold esf_raw_fits. cbn [er_class_id er_msg_id er_length er_msss er_data]. repeat match goal with |- _ /\ _ => split end; try assumption; lia.
  - intros l Hl. unfold decode_esf_raw. repeat nub1. unfold ESF_DATA_MAX_COUNT.
    match goal with |- context [128 <? ?k] => destruct (Z.ltb_spec 128 k) as [|Hk]; [discriminate|] end. repeat nub1. rewrite bind_array by lia.
    apply (n_nub _ _ _ _ _ _ esf_raw_data_codec); [assumption|]. discriminate.
Qed.
