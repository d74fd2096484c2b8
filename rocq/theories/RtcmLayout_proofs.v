(** Proofs for C77: what the decoders read, at the positions of the tables. *)
From Verif Require Import Base Bitstring Bits_model Bits_proofs Bitstream_model Bitstream_proofs RtcmStation_model RtcmEph_model RtcmLegacy_model RtcmLegacy_spec RtcmLayout_spec.
Open Scope Z_scope.

Definition res_of {A} (d : dout A) : res A := match d with DOk a _ => Ok a | DInvalid _ => Invalid | DMismatch => TypeMismatch | DUb => Ub end.
Definition cutoff {A} (bs : list bool) (t : Z) (r : res A) : res A := if len bs <? t then Invalid else r.
Lemma run_res {A} (d : dec A) p : run_dec d p = res_of (d (bits_of_bytes p)).
Proof. reflexivity. Qed.
Lemma cut_in {A} bs t (r : res A) : len bs < t -> cutoff bs t r = Invalid.
Proof. intro H. unfold cutoff. destruct (Z.ltb_spec (len bs) t); [reflexivity | lia]. Qed.
Lemma cut_out {A} bs t (r : res A) : t <= len bs -> cutoff bs t r = r.
Proof. intro H. unfold cutoff. destruct (Z.ltb_spec (len bs) t); [lia | reflexivity]. Qed.
Lemma signed_at bs o n : 0 <= o -> 0 < n -> o + n <= len bs -> to_signed n (val_be (take n (drop o bs))) = s_at bs o n.
Proof.
  intros Ho Hn L. unfold s_at, uat, to_signed.
  pose proof (val_be_range (take n (drop o bs))) as R. rewrite len_take, len_drop in R.
  replace (Z.min (Z.max 0 n) (Z.max 0 (len bs - Z.max 0 o))) with n in R by lia. now rewrite Z.mod_small by lia.
Qed.
(** one read, as an equation *)
Lemma get_u_at bs o n : 0 <= o -> 0 < n -> get_u n (drop o bs) = if len bs <? o + n then DInvalid (drop o bs) else DOk (uat bs o n) (drop (o + n) bs).
Proof.
  intros Ho Hn. unfold get_u. rewrite len_drop.
  destruct (Z.ltb_spec (Z.max 0 (len bs - Z.max 0 o)) n) as [L | L]; destruct (Z.ltb_spec (len bs) (o + n)) as [M | M]; try lia; [reflexivity |].
  now rewrite drop_drop by lia.
Qed.
Lemma get_s_at bs o n : 0 <= o -> 0 < n -> get_s n (drop o bs) = if len bs <? o + n then DInvalid (drop o bs) else DOk (s_at bs o n) (drop (o + n) bs).
Proof.
  intros Ho Hn. unfold get_s. rewrite len_drop.
  destruct (Z.ltb_spec (Z.max 0 (len bs - Z.max 0 o)) n) as [L | L]; destruct (Z.ltb_spec (len bs) (o + n)) as [M | M]; try lia; [reflexivity |].
  now rewrite drop_drop, signed_at by lia.
Qed.
Lemma s1_at bs o : s_at bs o 1 = if uat bs o 1 =? 1 then -1 else 0.
Proof.
  unfold s_at. cbv zeta. change (2 ^ (1 - 1)) with 1. change (2 ^ 1) with 2.
  assert (R : 0 <= uat bs o 1 < 2). { unfold uat. pose proof (val_be_range (take 1 (drop o bs))) as R. rewrite len_take in R.
    assert (2 ^ Z.min (Z.max 0 1) (len (drop o bs)) <= 2 ^ 1) by (apply Z.pow_le_mono_r; lia). change (2 ^ 1) with 2 in *. lia. }
  destruct (Z.ltb_spec (uat bs o 1) 1); destruct (Z.eqb_spec (uat bs o 1) 1); lia.
Qed.
Lemma get_sm_at bs o n : 0 <= o -> 1 < n ->
  get_sm n (drop o bs) = if len bs <? o + 1 then DInvalid (drop o bs) else if len bs <? o + n then DInvalid (drop (o + 1) bs) else DOk (mat bs o n) (drop (o + n) bs).
Proof.
  intros Ho Hn. unfold get_sm, dbind. rewrite get_s_at by lia. destruct (Z.ltb_spec (len bs) (o + 1)); [reflexivity |].
  rewrite get_u_at by lia. replace (o + 1 + (n - 1)) with (o + n) by ring. destruct (Z.ltb_spec (len bs) (o + n)); [reflexivity |].
  unfold ret, mat. rewrite s1_at. now destruct (uat bs o 1 =? 1).
Qed.
Lemma u_step {A} (f : Z -> dec A) bs o n t v : 0 <= o -> 0 < n -> o + n <= t ->
  (o + n <= len bs -> res_of (f (uat bs o n) (drop (o + n) bs)) = cutoff bs t v) -> res_of (dbind (get_u n) f (drop o bs)) = cutoff bs t v.
Proof. intros Ho Hn Ht H. unfold dbind. rewrite get_u_at by lia. destruct (Z.ltb_spec (len bs) (o + n)) as [L | L]; [now rewrite cut_in by lia | exact (H L)]. Qed.
Lemma s_step {A} (f : Z -> dec A) bs o n t v : 0 <= o -> 0 < n -> o + n <= t ->
  (o + n <= len bs -> res_of (f (s_at bs o n) (drop (o + n) bs)) = cutoff bs t v) -> res_of (dbind (get_s n) f (drop o bs)) = cutoff bs t v.
Proof. intros Ho Hn Ht H. unfold dbind. rewrite get_s_at by lia. destruct (Z.ltb_spec (len bs) (o + n)) as [L | L]; [now rewrite cut_in by lia | exact (H L)]. Qed.
Lemma m_step {A} (f : Z -> dec A) bs o n t v : 0 <= o -> 1 < n -> o + n <= t ->
  (o + n <= len bs -> res_of (f (mat bs o n) (drop (o + n) bs)) = cutoff bs t v) -> res_of (dbind (get_sm n) f (drop o bs)) = cutoff bs t v.
Proof.
  intros Ho Hn Ht H. unfold dbind. rewrite get_sm_at by lia. destruct (Z.ltb_spec (len bs) (o + 1)) as [L | L]; [now rewrite cut_in by lia |].
  destruct (Z.ltb_spec (len bs) (o + n)) as [K | K]; [now rewrite cut_in by lia | exact (H K)].
Qed.
Lemma k_step {A} (f : unit -> dec A) bs o n t (v : res A) : 0 <= o -> 0 <= n ->
  res_of (f tt (drop (o + n) bs)) = cutoff bs t v -> res_of (dbind (skip n) f (drop o bs)) = cutoff bs t v.
Proof. intros Ho Hn H. unfold dbind, skip. rewrite drop_drop by lia. exact H. Qed.
Lemma last_ok {A} (m : A) bs t r : t <= len bs -> res_of (ret m r) = cutoff bs t (Ok m).
Proof. intro L. now rewrite cut_out. Qed.
Lemma expect_at {A} num (d : dec A) bs t r : 12 <= t -> (12 <= len bs -> res_of (d (drop 12 bs)) = cutoff bs t r) -> res_of (expect num d bs) = verdict num t bs r.
Proof.
  intros Ht H. unfold expect, verdict, dbind. rewrite <- (drop_0 bs) at 1. rewrite get_u_at by lia. change (0 + 12) with 12.
  destruct (Z.ltb_spec (len bs) 12) as [L | L]; [reflexivity |]. destruct (uat bs 0 12 =? num) eqn:E; cbn [negb]; [| reflexivity].
  rewrite (H L). reflexivity.
Qed.
Ltac num_add := match goal with |- context [drop (?o + ?n) _] => let k := eval compute in (o + n) in change (o + n) with k end.
Ltac stp := match goal with
  | |- res_of (dbind (get_u _) _ (drop _ _)) = _ => apply u_step; [lia | lia | lia | intro]; num_add
  | |- res_of (dbind (get_s _) _ (drop _ _)) = _ => apply s_step; [lia | lia | lia | intro]; num_add
  | |- res_of (dbind (get_sm _) _ (drop _ _)) = _ => apply m_step; [lia | lia | lia | intro]; num_add
  | |- res_of (dbind (skip _) _ (drop _ _)) = _ => apply k_step; [lia | lia |]; num_add
  end; cbv beta; try match goal with A : _ <= len ?bs, B : _ <= len ?bs |- _ => clear A end.
Ltac fin := match goal with |- res_of (ret ?m _) = cutoff ?bs ?t (Ok ?m') => change (res_of (ret m' (drop 0 bs)) = cutoff bs t (Ok m')); apply last_ok; assumption end.

Lemma gps_at p : run_dec decode_gps p = verdict 1019 (bits_of t1019) (bits_of_bytes p) (Ok (gps_of (bits_of_bytes p))).
Proof. rewrite run_res. change (bits_of t1019) with 488. unfold decode_gps. apply expect_at; [lia | intro]. do 30 stp. fin. Qed.
Lemma qzss_at p : run_dec decode_qzss p = verdict 1044 (bits_of t1044) (bits_of_bytes p) (Ok (qzss_of (bits_of_bytes p))).
Proof. rewrite run_res. change (bits_of t1044) with 485. unfold decode_qzss. apply expect_at; [lia | intro]. do 29 stp. fin. Qed.
Lemma bds_at p : let bs := bits_of_bytes p in
  run_dec decode_bds p = verdict 1042 (bits_of t1042) bs (if U t1042 bs 488 <=? 5 then Invalid else Ok (bds_of bs)).
Proof.
  intro bs. rewrite run_res. fold bs. change (bits_of t1042) with 511. change (U t1042 bs 488) with (uat bs 12 6). unfold decode_bds. apply expect_at; [lia | intro].
  stp. destruct (uat bs 12 6 <=? 5) eqn:E.
  - unfold fail, cutoff. cbn [res_of]. now destruct (len bs <? 511).
  - do 27 stp. fin.
Qed.
Lemma assoc {A B C} (x : dec A) (f : A -> dec B) (g : B -> dec C) bs : dbind (dbind x f) g bs = dbind x (fun a => dbind (f a) g) bs.
Proof. unfold dbind. now destruct (x bs). Qed.
Lemma lret {A B} (a : A) (f : A -> dec B) bs : dbind (ret a) f bs = f a bs.
Proof. reflexivity. Qed.
Lemma inav_at p : let bs := bits_of_bytes p in
  run_dec decode_inav p = verdict 1046 (bits_of t1046 - 2) bs (Ok (gal_of t1046 bs (Sg t1046 bs 313) (Sg t1046 bs 316 mod 256))).
Proof.
  intro bs. rewrite run_res. fold bs. change (bits_of t1046 - 2) with 502. unfold decode_inav. apply expect_at; [lia | intro].
  unfold decode_gal_common. do 24 stp. rewrite assoc. stp. rewrite assoc. stp. rewrite assoc. stp. rewrite lret. cbv beta zeta iota. fin.
Qed.
Lemma fnav_at p : let bs := bits_of_bytes p in
  run_dec decode_fnav p = verdict 1045 (bits_of t1045 - 7) bs (Ok (gal_of t1045 bs 0 (Sg t1045 bs 314 mod 256))).
Proof.
  intro bs. rewrite run_res. fold bs. change (bits_of t1045 - 7) with 489. unfold decode_fnav. apply expect_at; [lia | intro].
  unfold decode_gal_common. do 24 stp. rewrite assoc. stp. rewrite assoc. stp. rewrite lret. cbv beta zeta iota. fin.
Qed.
Lemma one_bit bs o : uat bs o 1 = 0 \/ uat bs o 1 = 1.
Proof.
  unfold uat. pose proof (val_be_range (take 1 (drop o bs))) as R. rewrite len_take in R.
  assert (2 ^ Z.min (Z.max 0 1) (len (drop o bs)) <= 2 ^ 1) by (apply Z.pow_le_mono_r; lia). change (2 ^ 1) with 2 in *. lia.
Qed.
Lemma lor_bits bs i j k : Z.lor (Z.lor (uat bs i 1) (uat bs j 1)) (uat bs k 1) = Z.b2z ((uat bs i 1 =? 1) || (uat bs j 1 =? 1) || (uat bs k 1 =? 1)).
Proof. destruct (one_bit bs i) as [-> | ->], (one_bit bs j) as [-> | ->], (one_bit bs k) as [-> | ->]; reflexivity. Qed.
Lemma lor_bits0 bs i j : Z.lor (Z.lor (uat bs i 1) (uat bs j 1)) 0 = Z.b2z ((uat bs i 1 =? 1) || (uat bs j 1 =? 1)).
Proof. destruct (one_bit bs i) as [-> | ->], (one_bit bs j) as [-> | ->]; reflexivity. Qed.
Lemma glo_at p : let bs := bits_of_bytes p in
  run_dec decode_glo p = verdict 1020 (if U t1020 bs 131 =? 1 then bits_of t1020 - 7 else bits_of t1020 - 78) bs (Ok (glo_of bs)).
Proof.
  intro bs. rewrite run_res. fold bs. change (bits_of t1020 - 7) with 353. change (bits_of t1020 - 78) with 282.
  change (U t1020 bs 131) with (uat bs 281 1). destruct (one_bit bs 281) as [E | E]; rewrite E; cbn [Z.eqb Pos.eqb]; unfold decode_glo; (apply expect_at; [lia | intro]);
    do 30 stp; rewrite E; cbn [Z.eqb].
  - rewrite lret. cbv beta. rewrite lor_bits0.
    assert (G : glo_of bs = mkgeph (U t1020 bs 38) (U t1020 bs 128) (U t1020 bs 106) (Z.b2z ((U t1020 bs 108 =? 1) || (U t1020 bs 123 =? 1))) (M t1020 bs 121) (M t1020 bs 124) (M t1020 bs 125) (U t1020 bs 110)
      (M t1020 bs 112) (M t1020 bs 115) (M t1020 bs 118) (M t1020 bs 111) (M t1020 bs 114) (M t1020 bs 117) (M t1020 bs 113) (M t1020 bs 116) (M t1020 bs 119) (U t1020 bs 40)).
    { unfold glo_of. cbv zeta. change (U t1020 bs 131) with (uat bs 281 1). rewrite E. cbn [Z.eqb andb]. now rewrite orb_false_r. }
    rewrite G. fin.
  - rewrite assoc. stp. rewrite assoc. stp. rewrite assoc. stp. rewrite assoc. stp. stp. rewrite lor_bits.
    assert (G : glo_of bs = mkgeph (U t1020 bs 38) (U t1020 bs 128) (U t1020 bs 106) (Z.b2z ((U t1020 bs 108 =? 1) || (U t1020 bs 123 =? 1) || (U t1020 bs 136 =? 1))) (M t1020 bs 121) (M t1020 bs 124) (M t1020 bs 125) (U t1020 bs 110)
      (M t1020 bs 112) (M t1020 bs 115) (M t1020 bs 118) (M t1020 bs 111) (M t1020 bs 114) (M t1020 bs 117) (M t1020 bs 113) (M t1020 bs 116) (M t1020 bs 119) (U t1020 bs 40)).
    { unfold glo_of. cbv zeta. change (U t1020 bs 131) with (uat bs 281 1). rewrite E. reflexivity. }
    rewrite G. fin.
Qed.

(** ** station messages *)
Lemma m1005_at p : let bs := bits_of_bytes p in run_dec decode_1005 p = verdict 1005 (bits_of t1005) bs (Ok (m1005_of t1005 bs)).
Proof.
  intro bs. rewrite run_res. fold bs. change (bits_of t1005) with 152. unfold decode_1005. apply expect_at; [lia | intro]. unfold decode_1005_base. do 12 stp. fin.
Qed.
Lemma m1006_at g p : let bs := bits_of_bytes p in bits_of t1006 <= len bs -> U t1006 bs 2 = 1006 ->
  run_dec (decode_1006 g) p = Ok (mk1006 (m1005_of t1006 bs) (U t1006 bs 28)).
Proof.
  intros bs L N. rewrite run_res. fold bs. change (bits_of t1006) with 168 in L. change (U t1006 bs 2) with (uat bs 0 12) in N.
  unfold decode_1006. rewrite (expect_at 1006 _ bs 168 (Ok (mk1006 (m1005_of t1006 bs) (U t1006 bs 28)))); [| lia |].
  - unfold verdict. rewrite N. destruct (Z.ltb_spec (len bs) 12); [lia |]. destruct (Z.ltb_spec (len bs) 168); [lia |]. reflexivity.
  - intros _.
    assert (B : decode_1005_base (drop 12 bs) = DOk (m1005_of t1006 bs) (drop 152 bs)).
    { clear - L. unfold decode_1005_base, dbind, skip.
      repeat (first [rewrite drop_drop by lia | rewrite get_u_at by lia | rewrite get_s_at by lia]; try num_add;
        try match goal with |- context [if len bs <? ?k then _ else _] => let K := fresh in assert (K : (len bs <? k) = false) by (apply Z.ltb_ge; revert L; clear; cbn; lia); rewrite K; clear K end).
      reflexivity. }
    unfold dbind at 1. unfold attempt. rewrite B. stp. fin.
Qed.

(** ** strings *)
Lemma uat_nonneg bs o n : 0 <= uat bs o n. Proof. unfold uat. pose proof (val_be_range (take n (drop o bs))). lia. Qed.
Lemma bytes_at_S bs o n : bytes_at bs o (Z.of_nat (Datatypes.S n)) = uat bs o 8 :: bytes_at bs (o + 8) (Z.of_nat n).
Proof.
  unfold bytes_at. rewrite !Nat2Z.id. cbn [seq map]. f_equal; [f_equal; lia |]. rewrite <- seq_shift, map_map. apply map_ext. intro i. f_equal. lia.
Qed.
Lemma bytes_get n : forall bs o, 0 <= o ->
  if len bs <? o + 8 * Z.of_nat n then exists r, get_list (get_u 8) n (drop o bs) = DInvalid r \/ (n = O) else
    get_list (get_u 8) n (drop o bs) = DOk (bytes_at bs o (Z.of_nat n)) (drop (o + 8 * Z.of_nat n) bs).
Proof.
  induction n as [| n IH]; intros bs o Ho; cbn [get_list].
  - change (Z.of_nat 0) with 0. rewrite Z.mul_0_r, Z.add_0_r. destruct (len bs <? o); [exists bs; now right | reflexivity].
  - unfold dbind. rewrite get_u_at by lia. specialize (IH bs (o + 8) ltac:(lia)).
    replace (o + 8 * Z.of_nat (Datatypes.S n)) with (o + 8 + 8 * Z.of_nat n) by lia.
    destruct (Z.ltb_spec (len bs) (o + 8)) as [L | L].
    + destruct (Z.ltb_spec (len bs) (o + 8 + 8 * Z.of_nat n)); [| lia]. exists (drop o bs). now left.
    + destruct (Z.ltb_spec (len bs) (o + 8 + 8 * Z.of_nat n)) as [K | K].
      * destruct IH as [r [E | ->]]; [| lia]. exists r. left. now rewrite E.
      * rewrite IH. unfold ret. now rewrite bytes_at_S.
Qed.
Lemma list_step {A} (f : list Z -> dec A) bs o n t v : 0 <= o <= len bs -> 0 <= n -> o + 8 * n <= t ->
  (o + 8 * n <= len bs -> res_of (f (bytes_at bs o n) (drop (o + 8 * n) bs)) = cutoff bs t v) ->
  res_of (dbind (get_list (get_u 8) (Z.to_nat n)) f (drop o bs)) = cutoff bs t v.
Proof.
  intros Ho Hn Ht H. unfold dbind. pose proof (bytes_get (Z.to_nat n) bs o ltac:(lia)) as G. rewrite Z2Nat.id in G by lia.
  destruct (Z.ltb_spec (len bs) (o + 8 * n)) as [L | L].
  - destruct G as [r [E | E]]; [| lia]. rewrite E. now rewrite cut_in by lia.
  - rewrite G. exact (H L).
Qed.
Lemma str_step {A} (f : list Z -> dec A) bs o t v : 0 <= o -> after_str bs o <= t -> (32 < count_at bs o -> v = Invalid) ->
  (count_at bs o <= 32 -> after_str bs o <= len bs -> res_of (f (str_at bs o) (drop (after_str bs o) bs)) = cutoff bs t v) ->
  res_of (dbind decode_string f (drop o bs)) = cutoff bs t v.
Proof.
  intros Ho Ht HI H. unfold after_str in *. pose proof (uat_nonneg bs o 8) as P. fold (count_at bs o) in P. unfold decode_string. rewrite assoc.
  apply u_step; [lia | lia | lia | intro L]. cbv beta. fold (count_at bs o). change RTCM_MAX_STRING_LEN with 32.
  destruct (Z.ltb_spec 32 (count_at bs o)) as [C | C].
  - rewrite (HI C). unfold dbind, fail, cutoff. cbn. now destruct (len bs <? t).
  - apply list_step; [lia | lia | lia |]. intro K. apply H; [lia | exact K].
Qed.
Lemma str_grow bs o : o + 8 <= after_str bs o.
Proof. unfold after_str, count_at. pose proof (uat_nonneg bs o 8). lia. Qed.
Lemma short_false bs os o : In o os -> 32 < count_at bs o -> short bs os = false.
Proof. intros I C. unfold short. apply not_true_is_false. intro F. rewrite forallb_forall in F. specialize (F o I). apply Z.leb_le in F. lia. Qed.
Ltac long_str := let C := fresh in intro C; match goal with |- context [short ?bs ?os] => rewrite (short_false bs os _) with (2 := C); [reflexivity | cbn [In]; tauto] end.
Lemma short_true bs os : (forall o, In o os -> count_at bs o <= 32) -> short bs os = true.
Proof. intro H. apply forallb_forall. intros o I. apply Z.leb_le. auto. Qed.
Ltac all_short := rewrite short_true; [apply last_ok; lia | cbn [In]; intros ? I; repeat destruct I as [<- | I]; try assumption; contradiction].
Lemma m1007_at p : let bs := bits_of_bytes p in
  run_dec decode_1007 p = verdict 1007 (end_1007 bs) bs (if short bs [24] then Ok (m1007_of bs) else Invalid).
Proof.
  intro bs. rewrite run_res. fold bs. pose proof (str_grow bs 24). unfold decode_1007. apply expect_at; [unfold end_1007; lia | intro].
  unfold decode_1007_base. apply u_step; [lia | lia | unfold end_1007; lia | intro]. num_add.
  apply str_step; [lia | unfold end_1007; lia | long_str | intros C1 L1].
  apply u_step; [lia | lia | unfold end_1007; lia | intro]. change (after_str bs 24 + 8) with (end_1007 bs) in *. all_short.
Qed.
Lemma m1008_at p : let bs := bits_of_bytes p in
  run_dec decode_1008 p = verdict 1008 (end_1008 bs) bs (if short bs [24; end_1007 bs] then Ok (m1008_of bs) else Invalid).
Proof.
  intro bs. rewrite run_res. fold bs. pose proof (str_grow bs 24). pose proof (str_grow bs (end_1007 bs)) as G. fold (end_1008 bs) in G.
  assert (E : after_str bs 24 + 8 = end_1007 bs) by reflexivity.
  unfold decode_1008. apply expect_at; [lia | intro].
  unfold decode_1007_base. rewrite assoc. apply u_step; [lia | lia | lia | intro]. num_add. cbv beta. rewrite assoc.
  apply str_step; [lia | lia | long_str | intros C1 L1]. rewrite assoc.
  apply u_step; [lia | lia | lia | intro]. rewrite lret. rewrite E in *.
  apply str_step; [lia | unfold end_1008; lia | long_str | intros C2 L2]. fold (end_1008 bs) in *. all_short.
Qed.
Lemma m1033_at p : let bs := bits_of_bytes p in
  run_dec decode_1033 p = verdict 1033 (end_1033 bs) bs (if short bs [24; end_1007 bs; at_rcv bs; at_fw bs; at_ser bs] then Ok (m1033_of bs) else Invalid).
Proof.
  intro bs. rewrite run_res. fold bs. pose proof (str_grow bs 24) as G0. pose proof (str_grow bs (end_1007 bs)) as G1. fold (end_1008 bs) in G1. fold (at_rcv bs) in G1.
  pose proof (str_grow bs (at_rcv bs)) as G2. fold (at_fw bs) in G2. pose proof (str_grow bs (at_fw bs)) as G3. fold (at_ser bs) in G3.
  pose proof (str_grow bs (at_ser bs)) as G4. fold (end_1033 bs) in G4. assert (E : after_str bs 24 + 8 = end_1007 bs) by reflexivity.
  unfold decode_1033. apply expect_at; [lia | intro].
  apply u_step; [lia | lia | lia | intro]. num_add. apply str_step; [lia | lia | long_str | intros C1 L1].
  apply u_step; [lia | lia | lia | intro]. rewrite E in *.
  apply str_step; [lia | fold (end_1008 bs); fold (at_rcv bs); lia | long_str | intros C2 L2]. fold (end_1008 bs) in *. fold (at_rcv bs) in *.
  apply str_step; [lia | fold (at_fw bs); lia | long_str | intros C3 L3]. fold (at_fw bs) in *.
  apply str_step; [lia | fold (at_ser bs); lia | long_str | intros C4 L4]. fold (at_ser bs) in *.
  apply str_step; [lia | fold (end_1033 bs); lia | long_str | intros C5 L5]. fold (end_1033 bs) in *. all_short.
Qed.
Lemma m1029_at p : let bs := bits_of_bytes p in
  run_dec decode_1029 p = verdict 1029 (bits_of t1029 + 8 * U t1029 bs 139) bs (Ok (m1029_of bs)).
Proof.
  intro bs. rewrite run_res. fold bs. change (bits_of t1029) with 72. change (U t1029 bs 139) with (uat bs 64 8). pose proof (uat_nonneg bs 64 8).
  unfold decode_1029. apply expect_at; [lia | intro]. do 5 stp. apply list_step; [lia | lia | lia |]. intro.
  change (m1029_of bs) with (mk1029 (uat bs 12 12) (uat bs 24 16) (uat bs 40 17) (uat bs 57 7) (bytes_at bs 72 (uat bs 64 8))). apply last_ok. lia.
Qed.
Lemma m4062_at p : let bs := bits_of_bytes p in
  run_dec decode_4062 p = verdict 4062 (56 + 8 * uat bs 48 8) bs (if uat bs 12 4 =? 0 then Ok (m4062_of bs) else Invalid).
Proof.
  intro bs. rewrite run_res. fold bs. pose proof (uat_nonneg bs 48 8).
  unfold decode_4062. apply expect_at; [lia | intro]. stp. destruct (uat bs 12 4 =? 0); cbn [negb].
  - do 3 stp. apply list_step; [lia | lia | lia |]. intro. apply last_ok. lia.
  - unfold fail, cutoff. cbn [res_of]. now destruct (len bs <? _).
Qed.

(** ** 1230 *)
Lemma val4 bs o : 0 <= o -> o + 4 <= len bs -> uat bs o 4 = 8 * uat bs o 1 + 4 * uat bs (o + 1) 1 + 2 * uat bs (o + 2) 1 + uat bs (o + 3) 1.
Proof.
  intros Ho L. unfold uat. rewrite <- (drop_drop 1 o), <- (drop_drop 2 o), <- (drop_drop 3 o) by lia.
  pose proof (len_drop o bs) as K. destruct (drop o bs) as [| a [| b [| c [| d r]]]]; unfold len in K at 1; cbn in K; try lia.
  unfold take, drop. cbn. destruct a, b, c, d; reflexivity.
Qed.
Definition flags (bs : list bool) : Z := uat bs 28 1 + uat bs 29 1 + uat bs 30 1 + uat bs 31 1.
Lemma bias_k bs : 
  bias_at bs 0 = (if uat bs 28 1 =? 1 then s_at bs 32 16 else 0) /\
  bias_at bs 1 = (if uat bs 29 1 =? 1 then s_at bs (32 + 16 * uat bs 28 1) 16 else 0) /\
  bias_at bs 2 = (if uat bs 30 1 =? 1 then s_at bs (32 + 16 * (uat bs 28 1 + uat bs 29 1)) 16 else 0) /\
  bias_at bs 3 = (if uat bs 31 1 =? 1 then s_at bs (32 + 16 * (uat bs 28 1 + uat bs 29 1 + uat bs 30 1)) 16 else 0).
Proof.
  unfold bias_at. change (Z.to_nat 0) with 0%nat. change (Z.to_nat 1) with 1%nat. change (Z.to_nat 2) with 2%nat. change (Z.to_nat 3) with 3%nat.
  cbn [seq map filter]. change (28 + Z.of_nat 0) with 28. change (28 + Z.of_nat 1) with 29. change (28 + Z.of_nat 2) with 30.
  change (28 + 0) with 28. change (28 + 1) with 29. change (28 + 2) with 30. change (28 + 3) with 31.
  destruct (one_bit bs 28) as [-> | ->], (one_bit bs 29) as [-> | ->], (one_bit bs 30) as [-> | ->], (one_bit bs 31) as [-> | ->];
    (split; [reflexivity |]; split; [reflexivity |]; split; reflexivity).
Qed.
Lemma m1230_at p : let bs := bits_of_bytes p in
  run_dec decode_1230 p = verdict 1230 (32 + 16 * flags bs) bs (Ok (m1230_of bs)).
Proof.
  intro bs. rewrite run_res. fold bs. unfold flags.
  pose proof (uat_nonneg bs 28 1). pose proof (uat_nonneg bs 29 1). pose proof (uat_nonneg bs 30 1). pose proof (uat_nonneg bs 31 1).
  unfold decode_1230. apply expect_at; [lia | intro].
  apply u_step; [lia | lia | lia | intro]; num_add. apply u_step; [lia | lia | lia | intro]; num_add.
  apply k_step; [lia | lia |]; num_add. apply u_step; [lia | lia | lia | intro L4]; num_add. cbv beta.
  unfold m1230_of. cbv zeta. change (U t1230 bs 3) with (uat bs 12 12). change (U t1230 bs 421) with (uat bs 24 1). change (U t1230 bs 422) with (uat bs 28 4).
  destruct (bias_k bs) as (B0 & B1 & B2 & B3). rewrite B0, B1, B2, B3. clear B0 B1 B2 B3.
  pose proof (val4 bs 28 ltac:(lia) ltac:(lia)) as V. change (28 + 1) with 29 in V. change (28 + 2) with 30 in V. change (28 + 3) with 31 in V.
  unfold get_bias.
  destruct (one_bit bs 28) as [E0 | E0], (one_bit bs 29) as [E1 | E1], (one_bit bs 30) as [E2 | E2], (one_bit bs 31) as [E3 | E3];
    rewrite ?E0, ?E1, ?E2, ?E3 in V; rewrite ?E0, ?E1, ?E2, ?E3;
    match type of V with _ = ?e => let k := eval compute in e in change e with k in V end; rewrite !V;
    cbn [Z.testbit Z.odd Pos.testbit Z.eqb Pos.eqb app Z.mul Z.add Pos.mul Pos.add Pos.add_carry Pos.succ Z.pred Pos.pred_double Pos.pred_N];
    repeat (first [stp | rewrite lret; cbv beta]); apply last_ok; try assumption; lia.
Qed.

(** ** legacy observations *)
Lemma get_list_at {A} (d : dec A) (w : Z) (g : Z -> A) bs n : forall o, 0 <= o <= len bs -> 0 < w ->
  (forall i, 0 <= i < Z.of_nat n -> o + w * i + w <= len bs -> d (drop (o + w * i) bs) = DOk (g (o + w * i)) (drop (o + w * i + w) bs)) ->
  (forall i, 0 <= i < Z.of_nat n -> o + w * i <= len bs < o + w * i + w -> exists r, d (drop (o + w * i) bs) = DInvalid r) ->
  if len bs <? o + w * Z.of_nat n then exists r, get_list d n (drop o bs) = DInvalid r
  else get_list d n (drop o bs) = DOk (map (fun i => g (o + w * Z.of_nat i)) (seq 0 n)) (drop (o + w * Z.of_nat n) bs).
Proof.
  induction n as [| n IH]; intros o Ho Hw Hd Hx.
  - change (Z.of_nat 0) with 0. rewrite Z.mul_0_r, Z.add_0_r. destruct (Z.ltb_spec (len bs) o); [lia | reflexivity].
  - cbn [get_list]. unfold dbind.
    destruct (Z.le_gt_cases (o + w) (len bs)) as [L | L].
    + pose proof (Hd 0 ltac:(lia) ltac:(lia)) as E. rewrite Z.mul_0_r, Z.add_0_r in E. rewrite E.
      assert (I := IH (o + w) ltac:(lia) Hw). clear IH.
      assert (A1 : forall i, 0 <= i < Z.of_nat n -> o + w + w * i + w <= len bs -> d (drop (o + w + w * i) bs) = DOk (g (o + w + w * i)) (drop (o + w + w * i + w) bs)).
      { intros i Hi Li. pose proof (Hd (i + 1) ltac:(lia)) as D. replace (o + w * (i + 1)) with (o + w + w * i) in D by ring. exact (D Li). }
      assert (A2 : forall i, 0 <= i < Z.of_nat n -> o + w + w * i <= len bs < o + w + w * i + w -> exists r, d (drop (o + w + w * i) bs) = DInvalid r).
      { intros i Hi Li. pose proof (Hx (i + 1) ltac:(lia)) as D. replace (o + w * (i + 1)) with (o + w + w * i) in D by ring. exact (D Li). }
      specialize (I A1 A2). replace (o + w * Z.of_nat (Datatypes.S n)) with (o + w + w * Z.of_nat n) by lia.
      destruct (len bs <? o + w + w * Z.of_nat n).
      * destruct I as [r I]. exists r. now rewrite I.
      * rewrite I. unfold ret. do 2 f_equal. cbn [seq map]. f_equal; [f_equal; lia |]. rewrite <- seq_shift, map_map. apply map_ext. intro i. f_equal. lia.
    + destruct (Z.ltb_spec (len bs) (o + w * Z.of_nat (Datatypes.S n))) as [? | K]; [| nia].
      destruct (Hx 0 ltac:(lia) ltac:(lia)) as [r E]. rewrite Z.mul_0_r, Z.add_0_r in E. exists r. now rewrite E.
Qed.
Lemma u_ok {A} (f : Z -> dec A) bs o n : 0 <= o -> 0 < n -> o + n <= len bs -> dbind (get_u n) f (drop o bs) = f (uat bs o n) (drop (o + n) bs).
Proof. intros. unfold dbind. rewrite get_u_at by lia. destruct (Z.ltb_spec (len bs) (o + n)); [lia | reflexivity]. Qed.
Lemma s_ok {A} (f : Z -> dec A) bs o n : 0 <= o -> 0 < n -> o + n <= len bs -> dbind (get_s n) f (drop o bs) = f (s_at bs o n) (drop (o + n) bs).
Proof. intros. unfold dbind. rewrite get_s_at by lia. destruct (Z.ltb_spec (len bs) (o + n)); [lia | reflexivity]. Qed.
Lemma u_no {A} (f : Z -> dec A) bs o n : 0 <= o -> 0 < n -> (o + n <= len bs -> exists r, f (uat bs o n) (drop (o + n) bs) = DInvalid r) ->
  exists r, dbind (get_u n) f (drop o bs) = DInvalid r.
Proof. intros Ho Hn H. unfold dbind. rewrite get_u_at by lia. destruct (Z.ltb_spec (len bs) (o + n)); [eexists; reflexivity | now apply H]. Qed.
Lemma s_no {A} (f : Z -> dec A) bs o n : 0 <= o -> 0 < n -> (o + n <= len bs -> exists r, f (s_at bs o n) (drop (o + n) bs) = DInvalid r) ->
  exists r, dbind (get_s n) f (drop o bs) = DInvalid r.
Proof. intros Ho Hn H. unfold dbind. rewrite get_s_at by lia. destruct (Z.ltb_spec (len bs) (o + n)); [eexists; reflexivity | now apply H]. Qed.
Lemma l1_mark bs o w : (uat bs o w =? CP_INVALID) = false.
Proof. apply Z.eqb_neq. pose proof (uat_nonneg bs o w). unfold CP_INVALID. lia. Qed.
Lemma range_ok p : p <> 2 ^ 19 -> negb (p =? 2 ^ 19) = true.
Proof. intro H. now apply negb_true_iff, Z.eqb_neq. Qed.
Lemma lock_eq li : from_lock_ind li = lock_seconds li.
Proof.
  unfold from_lock_ind, lock_seconds. rewrite (Z.mul_comm 2 li), (Z.mul_comm 4 li), (Z.mul_comm 8 li), (Z.mul_comm 16 li), (Z.mul_comm 32 li). reflexivity.
Qed.
Ltac sok := first [rewrite u_ok by lia | rewrite s_ok by lia | rewrite lret | rewrite assoc]; cbv beta.
Lemma sat_yes k bs o : legacy_kind k -> 0 <= o -> o + bits_of (t_sat k) <= len bs -> l1_code k bs o <> 2 ^ 19 ->
  decode_sat k (drop o bs) = DOk (sat_of k bs o) (drop (o + bits_of (t_sat k)) bs).
Proof.
  intros K Ho L N. apply range_ok in N. unfold l1_code in N.
  destruct K as [<- | [<- | [<- | [<- | [<- | [<- | []]]]]]];
    match type of L with _ + ?t <= _ => let v := eval compute in t in change t with v in * end;
    unfold decode_sat, get_cnr; cbn [K1001 K1002 K1003 K1004 K1010 K1012 k_sys k_ext k_two amb_width] in *; repeat sok;
    rewrite l1_mark; unfold sat_of, signal_of; cbv zeta; rewrite <- !lock_eq; unfold ret;
    (match goal with |- DOk ?a (drop ?x bs) = DOk ?b (drop ?y bs) => let H := fresh in assert (H : x = y) by ring; rewrite H; clear H end);
    cbv [Uo So t_sat place K1001 K1002 K1003 K1004 K1010 K1012 k_sys k_ext k_two app Z.eqb Pos.eqb] in N |- *; rewrite ?N;
    unfold prunit, PRUNIT_GPS, PRUNIT_GLO, freq_l1, freq_l2, GPS_L1_HZ, GPS_L2_HZ, GLO_L1_HZ, GLO_L2_HZ; f_equal; f_equal;
    try reflexivity; f_equal; try reflexivity; try ring.
Qed.
Ltac sno := match goal with
  | |- exists r, dbind (get_u _) _ (drop _ _) = DInvalid r => apply u_no; [lia | lia | intro]
  | |- exists r, dbind (get_s _) _ (drop _ _) = DInvalid r => apply s_no; [lia | lia | intro]
  | |- exists r, dbind (ret _) _ _ = DInvalid r => rewrite lret
  | |- exists r, dbind (dbind _ _) _ _ = DInvalid r => rewrite assoc
  | |- exists r, ret _ _ = DInvalid r => exfalso; lia
  end; cbv beta zeta.
Lemma sat_no k bs o : legacy_kind k -> 0 <= o -> len bs < o + bits_of (t_sat k) -> exists r, decode_sat k (drop o bs) = DInvalid r.
Proof.
  intros K Ho L.
  destruct K as [<- | [<- | [<- | [<- | [<- | [<- | []]]]]]];
    match type of L with _ < _ + ?t => let v := eval compute in t in change t with v in * end;
    unfold decode_sat, get_cnr; cbn [K1001 K1002 K1003 K1004 K1010 K1012 k_sys k_ext k_two amb_width] in *; repeat sno.
Qed.
Lemma sat_w k : legacy_kind k -> 0 < bits_of (t_sat k).
Proof. intros [<- | [<- | [<- | [<- | [<- | [<- | []]]]]]]; reflexivity. Qed.
(** the header has 64 (61) bits; a payload too short for it is invalid whatever its number *)
Lemma obs_at k p : let bs := bits_of_bytes p in let h := bits_of (t_hdr (k_sys k)) in legacy_kind k -> all_ranged k bs ->
  run_dec (decode_obs k) p =
    if len bs <? h then Invalid else if negb (U (t_hdr (k_sys k)) bs 2 =? k_num k) then TypeMismatch else if day_or_week (k_sys k) <=? tow_of (k_sys k) bs then Invalid
    else if len bs <? h + bits_of (t_sat k) * n_sats (k_sys k) bs then Invalid else Ok (mkobs (hdr_of (k_sys k) bs) (sats_of k bs)).
Proof.
  intros bs h K R. rewrite run_res. fold bs. unfold decode_obs. rewrite <- (drop_0 bs) at 1.
  assert (Hh : h = 64 \/ h = 61) by (unfold h; destruct (k_sys k); [left | right]; reflexivity).
  destruct (Z.ltb_spec (len bs) h) as [L | L].
  - unfold h in L. destruct (k_sys k); (match type of L with _ < ?t => let v := eval compute in t in change t with v in * end);
      match goal with |- res_of (?d) = _ => assert (G : exists r, d = DInvalid r) end;
      try (cbn [tow_width]; repeat sno; exfalso; cbn in *; lia); destruct G as [r ->]; reflexivity.
  - assert (E : forall f : Z -> Z -> Z -> Z -> Z -> Z -> Z -> dec obs_msg,
      (num <- get_u 12 ;; stn <- get_u 12 ;; tow <- get_u (tow_width (k_sys k)) ;; sync <- get_u 1 ;; n <- get_u 5 ;; div <- get_u 1 ;; smooth <- get_u 3 ;; f num stn tow sync n div smooth) (drop 0 bs) =
      f (U (t_hdr (k_sys k)) bs 2) (h_stn (hdr_of (k_sys k) bs)) (tow_of (k_sys k) bs) (h_sync (hdr_of (k_sys k) bs)) (n_sats (k_sys k) bs) (h_div (hdr_of (k_sys k) bs)) (h_smooth (hdr_of (k_sys k) bs)) (drop h bs)).
    { intro f. unfold h in *. destruct (k_sys k); cbn [tow_width]; (match type of L with ?t <= _ => let v := eval compute in t in change t with v in * end);
        repeat sok; reflexivity. }
    rewrite E. clear E.
    destruct (negb (U (t_hdr (k_sys k)) bs 2 =? k_num k)); [reflexivity |].
    assert (D : (max_tow (k_sys k) <? tow_of (k_sys k) bs) = (day_or_week (k_sys k) <=? tow_of (k_sys k) bs)).
    { unfold max_tow, day_or_week, RTCM_MAX_TOW_MS, RTCM_GLO_MAX_TOW_MS. destruct (k_sys k).
      - destruct (Z.ltb_spec 604799999 (tow_of GPS bs)), (Z.leb_spec 604800000 (tow_of GPS bs)); lia.
      - destruct (Z.ltb_spec 86399999 (tow_of GLO bs)), (Z.leb_spec 86400000 (tow_of GLO bs)); lia. }
    rewrite D. clear D. destruct (day_or_week (k_sys k) <=? tow_of (k_sys k) bs); [reflexivity |].
    assert (N0 : 0 <= n_sats (k_sys k) bs) by (unfold n_sats, U; destruct (place _ _ _); apply uat_nonneg).
    pose proof (get_list_at (decode_sat k) (bits_of (t_sat k)) (sat_of k bs) bs (Z.to_nat (n_sats (k_sys k) bs)) h ltac:(lia) (sat_w k K)) as G.
    rewrite Z2Nat.id in G by exact N0.
    assert (W := sat_w k K).
    assert (A1 : forall i, 0 <= i < n_sats (k_sys k) bs -> h + bits_of (t_sat k) * i + bits_of (t_sat k) <= len bs ->
      decode_sat k (drop (h + bits_of (t_sat k) * i) bs) = DOk (sat_of k bs (h + bits_of (t_sat k) * i)) (drop (h + bits_of (t_sat k) * i + bits_of (t_sat k)) bs)).
    { intros i Hi Li. apply sat_yes; [exact K | nia | exact Li | exact (R i Hi)]. }
    assert (A2 : forall i, 0 <= i < n_sats (k_sys k) bs -> h + bits_of (t_sat k) * i <= len bs < h + bits_of (t_sat k) * i + bits_of (t_sat k) ->
      exists r, decode_sat k (drop (h + bits_of (t_sat k) * i) bs) = DInvalid r).
    { intros i Hi [_ Li]. apply sat_no; [exact K | nia | exact Li]. }
    specialize (G A1 A2). unfold dbind. destruct (len bs <? h + bits_of (t_sat k) * n_sats (k_sys k) bs).
    + destruct G as [r ->]. reflexivity.
    + rewrite G. unfold ret. cbn [res_of]. unfold sats_of. do 2 f_equal. destruct (k_sys k); reflexivity.
Qed.
