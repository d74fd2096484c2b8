From Verif Require Import Base Bitstring Bits_model Bytestream_model Bytestream_proofs Ixcom_spec Novatel_model Novatel_spec Novatel_crc_proofs.

(** ** bit fields *)
Lemma land_bit x k : 0 <= k -> negb (Z.land x (Z.shiftl 1 k) =? 0) = Z.testbit x k.
Proof.
  intros Hk. destruct (Z.testbit x k) eqn:E.
  - apply negb_true_iff, Z.eqb_neq. intros H. apply (f_equal (fun v => Z.testbit v k)) in H.
    rewrite Z.land_spec, E, Z.shiftl_spec, Z.sub_diag, Z.bits_0 in H by lia. discriminate.
  - apply negb_false_iff, Z.eqb_eq. apply Z.bits_inj'. intros j Hj. rewrite Z.land_spec, Z.bits_0, Z.shiftl_spec by lia.
    destruct (Z.eq_dec j k) as [->|N]; [rewrite E; reflexivity|].
    replace (Z.testbit 1 (j - k)) with false; [apply andb_false_r|]. destruct (Z.lt_ge_cases (j - k) 0); [now rewrite Z.testbit_neg_r by lia|].
    symmetry. apply (testbit_small 1 _ 1); lia.
Qed.
Lemma le_val_bit l : bytes l -> forall i, 0 <= i -> Z.testbit (le_val l) i = Z.testbit (znth 0 (i / 8) l) (i mod 8).
Proof.
  induction l as [|b l IH]; intros H i Hi; [unfold znth; destruct (Z.to_nat (i / 8)); cbn [le_val nth]; rewrite !Z.bits_0; reflexivity|].
  inversion H as [|? ? Hb Hl]; subst. unfold byte in Hb. cbn [le_val].
  assert (E : b + 256 * le_val l = Z.lor (Z.shiftl (le_val l) 8) b) by (rewrite lor_shiftl_add by lia; change (2 ^ 8) with 256; lia).
  rewrite E, Z.lor_spec, Z.shiftl_spec by lia. destruct (Z.ltb_spec i 8).
  - rewrite Z.testbit_neg_r by lia. replace (i / 8) with 0 by lia. replace (i mod 8) with i by lia. rewrite znth_0. reflexivity.
  - rewrite (testbit_small b i 8) by lia. rewrite orb_false_r. rewrite IH by (assumption || lia). rewrite znth_cons by lia.
    f_equal; [f_equal|]; lia.
Qed.
Lemma bit_of_val l i : bytes l -> 0 <= i -> bit_of l i = Z.testbit (le_val l) i.
Proof. intros H Hi. unfold bit_of. rewrite land_bit by lia. symmetry. apply le_val_bit; assumption. Qed.
Lemma read_bits_bit l off n : forall i k, 0 <= i -> 0 <= k -> Z.testbit (read_le_bits64_from l off i n) k = (i <=? k) && (k <? i + Z.of_nat n) && bit_of l (off + k).
Proof.
  induction n as [|n IH]; intros i k Hi Hk.
  - cbn [read_le_bits64_from]. rewrite Z.bits_0. replace ((i <=? k) && (k <? i + Z.of_nat 0)) with false by lia. reflexivity.
  - cbn [read_le_bits64_from]. rewrite Z.lor_spec, IH by lia. destruct (Z.eq_dec k i) as [->|N].
    + replace (i + 1 <=? i) with false by lia. cbn [andb]. rewrite orb_false_r. replace ((i <=? i) && (i <? i + Z.of_nat (S n))) with true by lia. cbn [andb].
      destruct (bit_of l (off + i)); [|apply Z.bits_0]. rewrite Z.shiftl_spec, Z.sub_diag by lia. reflexivity.
    + replace (Z.testbit (if bit_of l (off + i) then Z.shiftl 1 i else 0) k) with false.
      * cbn [orb]. replace (i + 1 <=? k) with (i <=? k) by lia. replace (i + 1 + Z.of_nat n) with (i + Z.of_nat (S n)) by lia. reflexivity.
      * destruct (bit_of l (off + i)); [|now rewrite Z.bits_0]. rewrite Z.shiftl_spec by lia. destruct (Z.lt_ge_cases (k - i) 0); [now rewrite Z.testbit_neg_r by lia|].
        symmetry. apply (testbit_small 1 _ 1); lia.
Qed.
Lemma read_bits_field l off n : bytes l -> 0 <= off -> read_le_bits64 l off n = bitfield (le_val l) off (Z.of_nat n).
Proof.
  intros H Ho. unfold read_le_bits64, bitfield. apply Z.bits_inj'. intros k Hk. rewrite read_bits_bit by lia. rewrite <- Z.shiftr_div_pow2 by lia.
  destruct (Z.ltb_spec k (Z.of_nat n)).
  - rewrite Z.mod_pow2_bits_low, Z.shiftr_spec by lia. rewrite bit_of_val by (assumption || lia). replace ((0 <=? k) && (k <? 0 + Z.of_nat n)) with true by lia. cbn [andb]. f_equal. lia.
  - rewrite Z.mod_pow2_bits_high by lia. replace ((0 <=? k) && (k <? 0 + Z.of_nat n)) with false by lia. reflexivity.
Qed.
Lemma bitfield_range v o n : 0 <= n -> 0 <= bitfield v o n < 2 ^ n.
Proof. intros H. unfold bitfield. apply Z.mod_pos_bound. apply Z.pow_pos_nonneg; lia. Qed.
Lemma doppler_ext x : 0 <= x < 2 ^ 28 -> Z.shiftr (to_signed 32 (Z.shiftl x 4 mod 2 ^ 32)) 4 = twos_of 28 x.
Proof.
  intros H. rewrite Z.shiftr_div_pow2, Z.shiftl_mul_pow2 by lia. unfold to_signed, twos_of. rewrite Z.mod_mod by lia.
  change (2 ^ 4) with 16. change (2 ^ 28) with 268435456 in *. change (2 ^ 32) with 4294967296. change (2 ^ (32 - 1)) with 2147483648. change (2 ^ (28 - 1)) with 134217728.
  cbv zeta. rewrite (Z.mod_small (x * 16)) by lia. destruct (Z.ltb_spec (x * 16) 2147483648), (Z.ltb_spec x 134217728); lia.
Qed.
Lemma signed32_twos x : 0 <= x < 2 ^ 32 -> to_signed 32 x = twos_of 32 x.
Proof. intros H. unfold to_signed, twos_of. cbv zeta. rewrite Z.mod_small by lia. reflexivity. Qed.
Lemma read_record_spec enc r : bytes enc -> len enc = 24 -> (range_record enc r <-> r = read_record enc).
Proof.
  intros H L. unfold range_record, read_record. cbv zeta. rewrite !read_bits_field by (assumption || lia).
  rewrite doppler_ext by (apply bitfield_range; lia). rewrite signed32_twos by (apply bitfield_range; lia). tauto.
Qed.

(** ** bodies *)
Definition kind (w : nat * sign) : fkind := match snd w with Pos => FU (fst w) | Sgn => FS (fst w) | Neg => FN (fst w) end.
Lemma message_layout id ws : nov_message id ws -> layout_of id = Some (map kind ws) /\ id <> 140.
Proof. intros H. destruct H; split; (reflexivity || lia). Qed.
Lemma layout_message id ks : layout_of id = Some ks -> exists ws, nov_message id ws /\ ks = map kind ws.
Proof.
  unfold layout_of.
  destruct (Z.eqb_spec id 7) as [->|]; [intros [= <-]; eexists; split; [constructor|reflexivity]|].
  destruct (Z.eqb_spec id 42) as [->|]; [intros [= <-]; eexists; split; [constructor|reflexivity]|].
  destruct (Z.eqb_spec id 99) as [->|]; [intros [= <-]; eexists; split; [constructor|reflexivity]|].
  destruct (Z.eqb_spec id 263) as [->|]; [intros [= <-]; eexists; split; [constructor|reflexivity]|].
  destruct (Z.eqb_spec id 723) as [->|]; [intros [= <-]; eexists; split; [constructor|reflexivity]|].
  destruct (Z.eqb_spec id 1462) as [->|]; [intros [= <-]; eexists; split; [constructor|reflexivity]|]. discriminate.
Qed.
Lemma message_fun id ws ws' : nov_message id ws -> nov_message id ws' -> ws = ws'.
Proof. intros H. destruct H; intros H'; inversion H'; reflexivity. Qed.
(** the fields one by one *)
Inductive fields_enc : list (nat * sign) -> list Z -> list (list Z) -> Prop :=
| fe_nil : fields_enc [] [] []
| fe_cons w ws v vs e es : nov_field w v e -> fields_enc ws vs es -> fields_enc (w :: ws) (v :: vs) (e :: es).
Lemma fields_enc_nth ws : forall vs es, fields_enc ws vs es <->
  (length vs = length ws /\ length es = length ws /\
   forall i w, nth_error ws i = Some w -> exists v e, nth_error vs i = Some v /\ nth_error es i = Some e /\ nov_field w v e).
Proof.
  induction ws as [|w ws IH]; intros vs es; split.
  - intros H. inversion H; subst. repeat split. intros [|i] w; discriminate.
  - intros (A & B & _). destruct vs; [|discriminate]. destruct es; [|discriminate]. constructor.
  - intros H. inversion H as [|? ? v vs' e es' F G]; subst. apply IH in G. destruct G as (A & B & C). cbn [length]. split; [congruence|]. split; [congruence|].
    intros [|i] w'; cbn [nth_error]; [intros [= <-]; eauto 10| apply C].
  - intros (A & B & C). destruct vs as [|v vs]; [discriminate|]. destruct es as [|e es]; [discriminate|].
    destruct (C 0%nat w eq_refl) as (v' & e' & [= <-] & [= <-] & F). constructor; [exact F|]. apply IH. cbn [length] in A, B. split; [congruence|]. split; [congruence|].
    intros i w'. exact (C (S i) w').
Qed.
Definition wpos (w : nat * sign) : Prop := (0 < fst w)%nat.
Lemma pow8 n : (0 < n)%nat -> 2 ^ (8 * Z.of_nat n) = 256 ^ Z.of_nat n /\ 256 ^ Z.of_nat n = 2 * 2 ^ (8 * Z.of_nat n - 1) /\ 0 < 2 ^ (8 * Z.of_nat n - 1).
Proof.
  intros H. split; [change 256 with (2 ^ 8); rewrite <- Z.pow_mul_r by lia; reflexivity|].
  split; [|apply Z.pow_pos_nonneg; lia]. replace (2 * 2 ^ (8 * Z.of_nat n - 1)) with (2 ^ (8 * Z.of_nat n)).
  - change 256 with (2 ^ 8). rewrite <- Z.pow_mul_r by lia. reflexivity.
  - rewrite <- (Z.pow_succ_r 2) by lia. f_equal. lia.
Qed.
Lemma le_signed n v : (0 < n)%nat -> le n (to_signed (8 * Z.of_nat n) v) = le n v.
Proof.
  intros H. destruct (pow8 n H) as (A & B & C). rewrite <- (le_mod n (to_signed _ v)), <- (le_mod n v). f_equal. unfold to_signed. rewrite A. cbv zeta.
  destruct (_ <? _); [apply Z.mod_mod; lia|]. rewrite <- (Z.mod_add (v mod 256 ^ Z.of_nat n - 256 ^ Z.of_nat n) 1) by lia.
  rewrite Z.mul_1_l, Z.sub_add. apply Z.mod_mod. lia.
Qed.
Lemma to_signed_twos n v : (0 < n)%nat -> twos n (to_signed (8 * Z.of_nat n) v).
Proof.
  intros H. destruct (pow8 n H) as (A & B & C). unfold twos, to_signed. rewrite A. cbv zeta. pose proof (Z.mod_pos_bound v (256 ^ Z.of_nat n) ltac:(lia)).
  destruct (Z.ltb_spec (v mod 256 ^ Z.of_nat n) (2 ^ (8 * Z.of_nat n - 1))); lia.
Qed.
Lemma to_signed_le n v : (0 < n)%nat -> twos n v -> to_signed (8 * Z.of_nat n) (le_val (le n v)) = v.
Proof.
  intros H T. destruct (pow8 n H) as (A & B & C). rewrite le_val_le. apply to_signed_inv; [exact H|]. unfold sfits, twos in *. rewrite B.
  rewrite (Z.mul_comm 2), Z.div_mul by lia. lia.
Qed.
Lemma read_field_spec w l v : wpos w -> bytes l -> fsize (kind w) <= len l ->
  (read_field (kind w) l = Ok v <-> nov_field w v (take (fsize (kind w)) l)).
Proof.
  intros W Hb L. destruct w as [n s]. unfold wpos, kind in *. cbn [fst snd] in *.
  assert (E : forall k, k = n -> le k (le_val (take (Z.of_nat n) l)) = take (Z.of_nat n) l).
  { intros k ->. apply le_le_val; [apply Forall_take, Hb|]. destruct s; cbn [fsize] in L; pose proof (len_take (Z.of_nat n) l); unfold len in *; lia. }
  assert (LT : len (take (Z.of_nat n) l) = Z.of_nat n) by (rewrite len_take; destruct s; cbn [fsize] in L; lia).
  assert (VR : 0 <= le_val (take (Z.of_nat n) l) < 256 ^ Z.of_nat n) by (pose proof (le_val_range (take (Z.of_nat n) l) (Forall_take _ _ _ Hb)) as VR; rewrite LT in VR; exact VR).
  unfold nov_field. cbn [fst snd]. destruct s; cbn [fsize read_field].
  - split.
    + intros [= <-]. split; [exact VR|]. symmetry. apply E. reflexivity.
    + intros [U E']. rewrite E', le_val_le. f_equal. apply Z.mod_small. exact U.
  - split.
    + intros [= <-]. split; [apply to_signed_twos, W|]. rewrite le_signed by exact W. symmetry. apply E. reflexivity.
    + intros [U E']. rewrite E'. f_equal. apply to_signed_le; assumption.
  - split.
    + destruct (Z.eqb_spec (to_signed (8 * Z.of_nat n) (le_val (take (Z.of_nat n) l))) (- 2 ^ (8 * Z.of_nat n - 1))) as [|N]; [discriminate|].
      intros [= <-]. rewrite Z.opp_involutive. split; [apply to_signed_twos, W|]. split; [intros C; apply N; rewrite <- C; symmetry; apply Z.opp_involutive|]. rewrite le_signed by exact W. symmetry. apply E. reflexivity.
    + intros (U & N & E'). rewrite E', to_signed_le by assumption. destruct (Z.eqb_spec (- v) (- 2 ^ (8 * Z.of_nat n - 1))); [exfalso; lia|]. f_equal. lia.
Qed.
Lemma nov_field_len w v e : nov_field w v e -> len e = fsize (kind w).
Proof. destruct w as [n s]. unfold nov_field, kind. cbn [fst snd]. destruct s; intros H; decompose [and] H; subst; cbn [fsize]; apply len_le. Qed.
Lemma read_fields_spec ws : Forall wpos ws -> forall l vs, bytes l -> layout_size (map kind ws) = len l ->
  (read_fields (map kind ws) l = Ok vs <-> exists es, l = concat es /\ fields_enc ws vs es).
Proof.
  induction 1 as [|w ws W Ws IH]; intros l vs Hb L; cbn [map read_fields layout_size fold_right] in *.
  - split.
    + intros [= <-]. exists []. split; [apply len_zero_nil; lia| constructor].
    + intros (es & -> & F). inversion F. reflexivity.
  - assert (P : 0 <= layout_size (map kind ws)) by (clear; induction ws as [|[n s] ws IH]; cbn [map layout_size fold_right] in *; [lia| unfold layout_size in IH; destruct s; cbn [kind snd fst fsize]; lia]).
    assert (S0 : 0 <= fsize (kind w)) by (destruct w as [n []]; cbn; lia).
    assert (LD : layout_size (map kind ws) = len (drop (fsize (kind w)) l)) by (rewrite len_drop; unfold layout_size in *; lia).
    specialize (IH (drop (fsize (kind w)) l)). split.
    + destruct (read_field (kind w) l) as [v| | |] eqn:R; cbn [bind]; try discriminate.
      destruct (read_fields (map kind ws) (drop (fsize (kind w)) l)) as [vs'| | |] eqn:RS; cbn [bind]; try discriminate. intros [= <-].
      apply read_field_spec in R; [|exact W|exact Hb|unfold layout_size in *; lia].
      destruct (proj1 (IH vs' (Forall_drop _ _ _ Hb) LD) eq_refl) as (es & E & F). exists (take (fsize (kind w)) l :: es). split; [cbn [concat]; rewrite <- E; symmetry; apply take_drop|].
      constructor; assumption.
    + intros (es & E & F). inversion F as [|? ? v vs' e es' NF F']; subst. cbn [concat] in *. pose proof (nov_field_len _ _ _ NF) as LE.
      assert (T : take (fsize (kind w)) (e ++ concat es') = e) by (rewrite <- LE; apply take_app_exact).
      assert (D : drop (fsize (kind w)) (e ++ concat es') = concat es') by (rewrite <- LE; apply drop_app_exact).
      rewrite (proj2 (read_field_spec w (e ++ concat es') v W Hb ltac:(rewrite len_app, LE; pose proof (len_nonneg (concat es')); lia))) by (rewrite T; exact NF).
      cbn [bind]. rewrite (proj2 (IH vs' (Forall_drop _ _ _ Hb) LD)) by (rewrite D; eauto). reflexivity.
Qed.
Lemma fields_enc_size ws vs es : fields_enc ws vs es -> layout_size (map kind ws) = len (concat es).
Proof.
  induction 1 as [|w ws v vs e es F G IH]; [reflexivity|]. cbn [map layout_size fold_right concat]. rewrite len_app, (nov_field_len _ _ _ F). unfold layout_size in IH. lia.
Qed.
Lemma message_wpos id ws : nov_message id ws -> Forall wpos ws.
Proof. intros H. destruct H; repeat constructor; unfold wpos; cbn [fst]; lia. Qed.
Lemma fixed_spec id ws body vs : nov_message id ws -> bytes body ->
  (fixed_from_bytes (map kind ws) body = Ok vs <-> exists es, body = concat es /\ fields_enc ws vs es).
Proof.
  intros M Hb. unfold fixed_from_bytes. destruct (Z.eqb_spec (len body) (layout_size (map kind ws))) as [E|N].
  - apply read_fields_spec; [exact (message_wpos _ _ M)| exact Hb| lia].
  - split; [discriminate|]. intros (es & -> & F). apply fields_enc_size in F. congruence.
Qed.
Lemma chunks (encs : list (list Z)) : Forall (fun e => len e = 24) encs -> len (concat encs) = 24 * Z.of_nat (length encs).
Proof. induction 1 as [|e encs E F IH]; [reflexivity|]. cbn [concat length]. rewrite len_app, E, IH. lia. Qed.
Lemma chunk_exists n : forall l : list Z, len l = 24 * Z.of_nat n -> exists encs, l = concat encs /\ length encs = n /\ Forall (fun e => len e = 24) encs.
Proof.
  induction n as [|n IH]; intros l L.
  - exists []. split; [apply len_zero_nil; lia|]. split; [reflexivity| constructor].
  - destruct (IH (drop 24 l)) as (encs & E & N & F); [rewrite len_drop; lia|]. exists (take 24 l :: encs). split; [cbn [concat]; rewrite <- E; symmetry; apply take_drop|].
    split; [cbn; congruence|]. constructor; [rewrite len_take; lia| exact F].
Qed.
Lemma read_records_spec encs : Forall (fun e => len e = 24) encs -> bytes (concat encs) -> forall n, (n <= length encs)%nat ->
  read_records n (concat encs) = map read_record (firstn n encs).
Proof.
  induction 1 as [|e encs E F IH]; intros Hb n Hn; [destruct n; [reflexivity| cbn in Hn; lia]|]. destruct n as [|n]; [reflexivity|].
  cbn [read_records firstn map concat]. cbn [concat] in Hb. apply Forall_app in Hb. destruct Hb as [_ Hb]. unfold kRecordBinarySize.
  rewrite take_app_eq, drop_app_eq by exact E. f_equal. apply IH; [exact Hb| cbn [length] in Hn; lia].
Qed.
Lemma Forall2_read encs rs : Forall (fun e => len e = 24) encs -> Forall bytes encs -> (Forall2 range_record encs rs <-> rs = map read_record encs).
Proof.
  intros F. revert rs. induction F as [|e encs E F IH]; intros rs B; split.
  - intros H. inversion H. reflexivity.
  - intros ->. constructor.
  - intros H. inversion H as [|? r ? rs' R H']; subst. inversion B; subst. cbn [map]. f_equal; [apply read_record_spec; assumption| apply IH; assumption].
  - intros ->. inversion B; subst. cbn [map]. constructor; [apply read_record_spec; [assumption..|reflexivity]|]. apply IH; [assumption|reflexivity].
Qed.
Lemma bytes_concat encs : bytes (concat encs) -> Forall bytes encs.
Proof. induction encs as [|e encs IH]; intros H; constructor; cbn [concat] in H; apply Forall_app in H; [apply H| apply IH, H]. Qed.
Lemma range_spec body rs : bytes body ->
  (rangecmp_from_bytes body = Ok rs <->
   exists n encs, ufits 4 n /\ body = le 4 n ++ concat encs /\ Z.of_nat (length encs) = n /\ Forall (fun e => len e = 24) encs /\ Forall2 range_record (take 63 encs) rs).
Proof.
  intros Hb. unfold rangecmp_from_bytes, read_le, sub. change (drop 0 body) with body. unfold kRecordBinarySize, MAX_CHANNELS. split.
  - destruct (Z.ltb_spec (len body) 4); [discriminate|]. cbv zeta. set (n := le_val (take 4 body)).
    destruct (Z.eqb_spec (len body) (4 + n * 24)) as [E|]; [|discriminate]. intros [= <-].
    assert (U : ufits 4 n). { unfold ufits, n. pose proof (le_val_range (take 4 body) (Forall_take _ _ _ Hb)) as R. rewrite len_take in R. replace (Z.min (Z.max 0 4) (len body)) with 4 in R by lia. exact R. }
    destruct (chunk_exists (Z.to_nat n) (drop 4 body)) as (encs & C & N & F); [rewrite len_drop; unfold ufits in U; lia|].
    exists n, encs. unfold ufits in U. split; [exact U|]. split.
    + rewrite <- C. unfold n. rewrite le_le_val; [symmetry; apply take_drop|apply Forall_take, Hb|]. pose proof (len_take 4 body) as L. unfold len in *. lia.
    + split; [lia|]. split; [exact F|].
      assert (B : bytes (concat encs)) by (rewrite <- C; apply Forall_drop, Hb).
      apply Forall2_read; [apply Forall_take, F| apply Forall_take, bytes_concat, B|].
      rewrite C, read_records_spec by (try assumption; lia). f_equal. unfold take. destruct (Z.le_gt_cases n 63).
      * replace (Z.min n 63) with n by lia. rewrite !firstn_all2 by lia. reflexivity.
      * replace (Z.min n 63) with 63 by lia. reflexivity.
  - intros (n & encs & U & -> & N & F & F2). pose proof (chunks encs F) as CL. rewrite len_app, len_le, CL. unfold ufits in U.
    destruct (Z.ltb_spec (Z.of_nat 4 + 24 * Z.of_nat (length encs)) 4); [lia|]. rewrite take_app_eq, drop_app_eq by apply len_le. rewrite le_val_le, Z.mod_small by exact U. cbv zeta.
    destruct (Z.eqb_spec (Z.of_nat 4 + 24 * Z.of_nat (length encs)) (4 + n * 24)); [|lia].
    apply Forall_app in Hb. destruct Hb as [_ Hb]. f_equal. rewrite read_records_spec by (try assumption; lia).
    apply Forall2_read in F2; [|apply Forall_take, F| apply Forall_take, bytes_concat, Hb]. rewrite F2. f_equal. unfold take. destruct (Z.le_gt_cases n 63).
    + replace (Z.min n 63) with n by lia. rewrite !firstn_all2 by lia. reflexivity.
    + replace (Z.min n 63) with 63 by lia. reflexivity.
Qed.
Lemma parse_body_some h b m : bytes b -> (parse_body h b = Ok (Some m) <-> body_meaning (nh_id h) b m).
Proof.
  intros Hb. unfold parse_body. destruct (Z.eqb_spec (nh_id h) 140) as [E|N].
  - rewrite E. split.
    + destruct (rangecmp_from_bytes b) as [rs| | |] eqn:R; cbn [bind]; try discriminate. intros [= <-]. apply range_spec in R; [|exact Hb].
      destruct R as (n & encs & U & B & L & F & F2). eapply bm_range; eauto.
    + intros M. inversion M as [ws vs encs NM|n encs rs]; subst; [apply message_layout in NM; destruct NM; congruence|].
      assert (R : rangecmp_from_bytes (le 4 (Z.of_nat (length encs)) ++ concat encs) = Ok rs) by (apply range_spec; [exact Hb|]; exists (Z.of_nat (length encs)), encs; auto).
      rewrite R. reflexivity.
  - split.
    + destruct (layout_of (nh_id h)) as [ks|] eqn:L; [|discriminate]. destruct (layout_message _ _ L) as (ws & M & ->).
      destruct (fixed_from_bytes (map kind ws) b) as [vs| | |] eqn:F; cbn [bind]; try discriminate. intros [= <-].
      apply (fixed_spec _ _ _ _ M Hb) in F. destruct F as (es & E & F). apply fields_enc_nth in F. destruct F as (A & B & C). eapply bm_fixed; eauto.
    + intros M. inversion M as [ws vs encs NM E A B C|]; [|congruence]. subst m. destruct (message_layout _ _ NM) as [L _]. rewrite L.
      assert (F : fixed_from_bytes (map kind ws) b = Ok vs) by (apply (fixed_spec _ _ _ _ NM Hb); exists encs; split; [exact E|]; apply fields_enc_nth; auto).
      rewrite F. reflexivity.
Qed.
Lemma parse_body_none h b : parse_body h b = Ok None <-> ~ known_id (nh_id h).
Proof.
  unfold parse_body, known_id. destruct (Z.eqb_spec (nh_id h) 140) as [E|N].
  - split; [destruct (rangecmp_from_bytes b); discriminate|]. intros H. destruct H. left. exact E.
  - destruct (layout_of (nh_id h)) as [ks|] eqn:L.
    + split; [destruct (fixed_from_bytes ks b); discriminate|]. intros H. destruct H. right. destruct (layout_message _ _ L) as (ws & M & _). eauto.
    + split; [|reflexivity]. intros _ [C|(ws & M)]; [congruence|]. apply message_layout in M. destruct M. congruence.
Qed.
