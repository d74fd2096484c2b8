From Verif Require Import Base Bitstring Bits_model.

Lemma length_bits_at buff pos n : length (bits_at buff pos n) = n.
Proof. revert pos; induction n; intros; cbn [bits_at length]; auto. Qed.
Lemma length_bits_be n v : length (bits_be n v) = n.
Proof. induction n; cbn [bits_be length]; auto. Qed.
Lemma bits_at_app buff pos n m : bits_at buff pos (n + m) = bits_at buff pos n ++ bits_at buff (pos + Z.of_nat n) m.
Proof.
  revert pos; induction n as [|n IH]; intros pos.
  - cbn [Nat.add bits_at app]. f_equal. lia.
  - cbn [Nat.add bits_at app]. f_equal. rewrite IH. f_equal. f_equal. lia.
Qed.
Lemma bits_at_ext b1 b2 n : forall pos, (forall j, pos <= j < pos + Z.of_nat n -> bitat b1 j = bitat b2 j) ->
  bits_at b1 pos n = bits_at b2 pos n.
Proof.
  induction n as [|n IH]; intros pos H; [reflexivity|]. cbn [bits_at]. f_equal; [apply H; lia|].
  apply IH. intros. apply H. lia.
Qed.
Lemma fold_val l : forall a, fold_left (fun a b => 2 * a + Z.b2z b) l a = a * 2 ^ len l + val_be l.
Proof.
  unfold val_be. induction l as [|x l IH]; intros a; cbn [fold_left].
  - rewrite len_nil. cbn. lia.
  - rewrite IH. rewrite (IH (2 * 0 + Z.b2z x)). rewrite len_cons. rewrite Z.pow_add_r by (pose proof (len_nonneg l); lia).
    change (2 ^ 1) with 2. lia.
Qed.
Lemma val_be_cons b l : val_be (b :: l) = Z.b2z b * 2 ^ len l + val_be l.
Proof. unfold val_be at 1. cbn [fold_left]. rewrite fold_val. f_equal. Qed.
Lemma val_be_range l : 0 <= val_be l < 2 ^ len l.
Proof.
  induction l as [|b l IH]; [cbn; lia|]. rewrite val_be_cons, len_cons.
  rewrite Z.pow_add_r by (pose proof (len_nonneg l); lia). change (2^1) with 2. destruct b; cbn [Z.b2z]; lia.
Qed.
Lemma val_be_app a b : val_be (a ++ b) = val_be a * 2 ^ len b + val_be b.
Proof. unfold val_be at 1. rewrite fold_left_app. rewrite fold_val. reflexivity. Qed.
Lemma mod_pow2_succ v n : 0 <= n -> v mod 2 ^ (n + 1) = Z.b2z (Z.testbit v n) * 2 ^ n + v mod 2 ^ n.
Proof.
  intros Hn. rewrite Z.testbit_spec' by lia.
  rewrite Z.pow_add_r by lia. change (2^1) with 2.
  rewrite Z.rem_mul_r by lia. lia.
Qed.
Lemma val_bits_be n v : val_be (bits_be n v) = v mod 2 ^ Z.of_nat n.
Proof.
  induction n as [|n IH]; [cbn; now rewrite Z.mod_1_r|].
  cbn [bits_be]. rewrite val_be_cons, IH. unfold len. rewrite length_bits_be.
  replace (Z.of_nat (S n)) with (Z.of_nat n + 1) by lia. rewrite mod_pow2_succ by lia. reflexivity.
Qed.
Lemma bits_be_mod n v w : Z.of_nat n <= w -> bits_be n (v mod 2 ^ w) = bits_be n v.
Proof.
  intros H. induction n as [|n IH]; [reflexivity|]. cbn [bits_be].
  rewrite Z.mod_pow2_bits_low by lia. rewrite IH by lia. reflexivity.
Qed.
Lemma bits_be_val l : bits_be (length l) (val_be l) = l.
Proof.
  induction l as [|b l IH]; [reflexivity|]. cbn [length bits_be]. rewrite val_be_cons.
  pose proof (val_be_range l) as Hr. fold (len l) in *. f_equal.
  - replace (Z.of_nat (length l)) with (len l) by reflexivity.
    apply Z.b2z_inj. rewrite Z.testbit_spec' by apply len_nonneg.
    rewrite Z.div_add_l by lia. rewrite (Z.div_small (val_be l)) by lia. destruct b; reflexivity.
  - transitivity (bits_be (length l) (val_be l)); [|exact IH].
    rewrite <- (bits_be_mod (length l) (Z.b2z b * 2 ^ len l + val_be l) (len l)) by (unfold len; lia).
    replace ((Z.b2z b * 2 ^ len l + val_be l) mod 2 ^ len l) with (val_be l); [reflexivity|].
    apply Z.mod_unique with (q := Z.b2z b); lia.
Qed.
Lemma bits_be_ext n u v : (forall k, 0 <= k < Z.of_nat n -> Z.testbit u k = Z.testbit v k) -> bits_be n u = bits_be n v.
Proof.
  induction n as [|n IH]; intros H; [reflexivity|]. cbn [bits_be]. rewrite H by lia. f_equal. apply IH. intros. apply H. lia.
Qed.

(** ** byte facts *)
Lemma byte_iff b : byte b <-> 0 <= b < 2 ^ 8. Proof. reflexivity. Qed.
Lemma store_byte x k b : byte x -> 0 <= k <= 7 ->
  byte (if b : bool then Z.lor x (Z.shiftl 1 k) mod 256 else Z.land x (Z.lnot (Z.shiftl 1 k)) mod 256).
Proof. intros. unfold byte. destruct b; apply Z.mod_pos_bound; lia. Qed.
Lemma store_testbit x k j b : 0 <= k <= 7 -> 0 <= j <= 7 ->
  Z.testbit (if b : bool then Z.lor x (Z.shiftl 1 k) mod 256 else Z.land x (Z.lnot (Z.shiftl 1 k)) mod 256) j
  = if j =? k then b else Z.testbit x j.
Proof.
  intros Hk Hj. change 256 with (2 ^ 8).
  assert (Hs : Z.testbit (Z.shiftl 1 k) j = (j =? k)).
  { rewrite Z.shiftl_1_l. rewrite Z.pow2_bits_eqb by lia. apply Z.eqb_sym. }
  destruct b; rewrite Z.mod_pow2_bits_low by lia.
  - rewrite Z.lor_spec, Hs. destruct (j =? k); [apply orb_true_r|apply orb_false_r].
  - rewrite Z.land_spec, Z.lnot_spec, Hs by lia. destruct (j =? k); cbn [negb]; [apply andb_false_r|apply andb_true_r].
Qed.

Lemma len_store_bit buff i b : len (store_bit buff i b) = len buff.
Proof. apply len_zupd. Qed.
Lemma bytes_store_bit buff i b : bytes buff -> bytes (store_bit buff i b).
Proof.
  intros H. unfold store_bit, zupd. apply Forall_upd; [|exact H].
  intros x Hx. apply store_byte; [exact Hx|lia].
Qed.
Lemma bitat_store_bit buff i j b : 0 <= i < 8 * len buff -> 0 <= j ->
  bitat (store_bit buff i b) j = if j =? i then b else bitat buff j.
Proof.
  intros Hi Hj. unfold bitat, store_bit.
  destruct (Z.eq_dec (i / 8) (j / 8)) as [E|E].
  - rewrite <- E. rewrite znth_zupd_eq by lia. rewrite store_testbit by lia.
    destruct (Z.eqb_spec (7 - j mod 8) (7 - i mod 8)), (Z.eqb_spec j i); try reflexivity; try lia.
  - rewrite znth_zupd_neq by lia. destruct (Z.eqb_spec j i); [subst; lia|reflexivity].
Qed.

Lemma land_pow2_testbit data k : 0 <= k -> negb (Z.land data (2 ^ k) =? 0) = Z.testbit data k.
Proof.
  intros Hk. destruct (Z.testbit data k) eqn:E.
  - apply negb_true_iff, Z.eqb_neq. intros H.
    assert (Z.testbit (Z.land data (2^k)) k = true) by (rewrite Z.land_spec, Z.pow2_bits_true, E by lia; reflexivity).
    rewrite H, Z.bits_0 in *. discriminate.
  - apply negb_false_iff, Z.eqb_eq. apply Z.bits_inj'. intros j Hj. rewrite Z.land_spec, Z.bits_0.
    rewrite Z.pow2_bits_eqb by lia. destruct (Z.eqb_spec k j); [subst; rewrite E; reflexivity|apply andb_false_r].
Qed.

Lemma setbit_loop_spec n : forall buff i data,
  0 <= i -> i + Z.of_nat n <= 8 * len buff ->
  let b' := setbit_loop n buff i (Z.shiftl 1 (Z.of_nat n - 1)) data in
  len b' = len buff /\ (bytes buff -> bytes b') /\
  (forall j, 0 <= j -> bitat b' j = if (i <=? j) && (j <? i + Z.of_nat n)
                                   then Z.testbit data (i + Z.of_nat n - 1 - j) else bitat buff j).
Proof.
  induction n as [|n IH]; intros buff i data Hi Hl; cbn zeta.
  - cbn [setbit_loop]. repeat split; auto. intros j Hj.
    destruct (Z.leb_spec i j), (Z.ltb_spec j (i + Z.of_nat 0)); cbn [andb]; try reflexivity; lia.
  - cbn [setbit_loop]. replace (Z.of_nat (S n) - 1) with (Z.of_nat n) by lia.
    rewrite Z.shiftl_1_l. rewrite land_pow2_testbit by lia.
    set (b1 := store_bit buff i (Z.testbit data (Z.of_nat n))).
    assert (Hm : Z.shiftr (2 ^ Z.of_nat n) 1 = if (n =? 0)%nat then 0 else Z.shiftl 1 (Z.of_nat n - 1)).
    { destruct n as [|k]; [reflexivity|]. cbn [Nat.eqb]. rewrite Z.shiftr_div_pow2 by lia.
      rewrite Z.shiftl_1_l. change (2^1) with 2. replace (Z.of_nat (S k)) with (Z.of_nat (S k) - 1 + 1) at 1 by lia.
      rewrite Z.pow_add_r by lia. change (2^1) with 2. rewrite Z.div_mul by lia. reflexivity. }
    assert (Heq : setbit_loop n b1 (i + 1) (Z.shiftr (2 ^ Z.of_nat n) 1) data
              = setbit_loop n b1 (i + 1) (Z.shiftl 1 (Z.of_nat n - 1)) data).
    { rewrite Hm. destruct n; reflexivity. }
    rewrite Heq.
    specialize (IH b1 (i + 1) data). cbn zeta in IH.
    assert (Hlb : len b1 = len buff) by apply len_store_bit.
    destruct IH as (I1 & I2 & I3); [lia|lia|].
    split; [lia|]. split.
    + intros Hb. apply I2. apply bytes_store_bit. exact Hb.
    + intros j Hj. rewrite I3 by lia. unfold b1. rewrite bitat_store_bit by lia.
      destruct (Z.leb_spec (i+1) j), (Z.ltb_spec j (i + 1 + Z.of_nat n)), (Z.leb_spec i j), (Z.ltb_spec j (i + Z.of_nat (S n)));
        cbn [andb]; try lia; try (f_equal; lia); try reflexivity;
        destruct (Z.eqb_spec j i); try lia; try reflexivity. f_equal. lia.
Qed.

Lemma put_one_spec buff bit n v : 1 <= n <= 64 -> 0 <= bit -> bit + n <= 8 * len buff ->
  let b' := if n <=? 32 then setbitu buff bit n v else setbitul buff bit n v in
  len b' = len buff /\ (bytes buff -> bytes b') /\
  (forall j, 0 <= j -> ~ (bit <= j < bit + n) -> bitat b' j = bitat buff j) /\
  bits_at b' bit (Z.to_nat n) = bits_be (Z.to_nat n) v.
Proof.
  intros Hn Hb Hl. cbn zeta.
  assert (Hgen : forall w, n <= w ->
    let b' := setbit_loop (Z.to_nat n) buff bit (Z.shiftl 1 (n - 1)) (v mod 2 ^ w) in
    len b' = len buff /\ (bytes buff -> bytes b') /\
    (forall j, 0 <= j -> ~ (bit <= j < bit + n) -> bitat b' j = bitat buff j) /\
    bits_at b' bit (Z.to_nat n) = bits_be (Z.to_nat n) v).
  { intros w Hw. cbn zeta.
    pose proof (setbit_loop_spec (Z.to_nat n) buff bit (v mod 2 ^ w) ltac:(lia) ltac:(lia)) as H. cbn zeta in H.
    rewrite Z2Nat.id in H by lia. destruct H as (H1 & H2 & H3).
    split; [exact H1|]. split; [exact H2|]. split.
    - intros j Hj Hnj. rewrite H3 by lia.
      destruct (Z.leb_spec bit j), (Z.ltb_spec j (bit + n)); cbn [andb]; try reflexivity; lia.
    - rewrite <- (bits_be_mod _ v w) by lia. set (b' := setbit_loop _ _ _ _ _) in *.
      assert (G : forall m, (m <= Z.to_nat n)%nat -> bits_at b' (bit + n - Z.of_nat m) m = bits_be m (v mod 2^w)).
      { induction m as [|m IHm]; intros Hm; [reflexivity|]. cbn [bits_at bits_be]. f_equal.
        - rewrite H3 by lia. destruct (Z.leb_spec bit (bit + n - Z.of_nat (S m))), (Z.ltb_spec (bit + n - Z.of_nat (S m)) (bit + n)); cbn [andb]; try lia.
          f_equal. lia.
        - rewrite <- IHm by lia. f_equal. lia. }
      rewrite <- G by lia. f_equal. lia. }
  destruct (Z.leb_spec n 32).
  - unfold setbitu. destruct (Z.leb_spec n 0), (Z.ltb_spec 32 n); cbn [orb]; try lia. apply Hgen. lia.
  - unfold setbitul. destruct (Z.leb_spec n 0), (Z.ltb_spec 64 n); cbn [orb]; try lia. apply Hgen. lia.
Qed.

Lemma total_nonneg fs : Forall width_ok fs -> 0 <= total fs.
Proof. induction 1 as [|f fs Hf Hfs IH]; cbn [total fold_right]; [lia|]. unfold width_ok in Hf. fold (total fs). lia. Qed.
Lemma total_app a b : total (a ++ b) = total a + total b.
Proof. induction a as [|f a IH]; cbn [total fold_right app]; [reflexivity|]. fold (total (a ++ b)). fold (total a). lia. Qed.
Lemma fields_bits_app a b : fields_bits (a ++ b) = fields_bits a ++ fields_bits b.
Proof. apply flat_map_app. Qed.
Lemma length_fields_bits fs : Forall width_ok fs -> Z.of_nat (length (fields_bits fs)) = total fs.
Proof.
  induction 1 as [|f fs Hf Hfs IH]; [reflexivity|]. unfold fields_bits in *. cbn [flat_map total fold_right]. fold (total fs).
  rewrite app_length. unfold fbits at 1. rewrite length_bits_be. unfold width_ok in Hf. lia.
Qed.

Lemma put_fields_spec fs : forall buff bit, Forall width_ok fs -> 0 <= bit -> bit + total fs <= 8 * len buff ->
  let r := put_fields buff bit fs in
  snd r = bit + total fs /\ len (fst r) = len buff /\ (bytes buff -> bytes (fst r)) /\
  (forall j, 0 <= j -> ~ (bit <= j < bit + total fs) -> bitat (fst r) j = bitat buff j) /\
  bits_at (fst r) bit (Z.to_nat (total fs)) = fields_bits fs.
Proof.
  induction fs as [|[n v] fs IH]; intros buff bit Hw Hb Hl; cbn zeta.
  - unfold put_fields. cbn. repeat split; auto. lia.
  - inversion Hw as [|? ? Hn Hw']; subst. unfold width_ok in Hn. cbn [fst] in Hn.
    cbn [total fold_right fst] in *. fold (total fs) in *. pose proof (total_nonneg fs Hw') as Ht.
    pose proof (put_one_spec buff bit n v Hn Hb ltac:(lia)) as H1. cbn zeta in H1.
    unfold put_fields in *. cbn [fold_left put_field].
    set (b1 := if n <=? 32 then setbitu buff bit n v else setbitul buff bit n v) in *.
    destruct H1 as (A1 & A2 & A3 & A4).
    specialize (IH b1 (bit + n) Hw' ltac:(lia) ltac:(lia)). cbn zeta in IH.
    set (r := fold_left put_field fs (b1, bit + n)) in *.
    destruct IH as (B1 & B2 & B3 & B4 & B5).
    split; [lia|]. split; [lia|]. split; [auto|]. split.
    + intros j Hj Hnj. rewrite B4 by lia. apply A3; lia.
    + replace (Z.to_nat (n + total fs)) with (Z.to_nat n + Z.to_nat (total fs))%nat by lia.
      rewrite bits_at_app. rewrite Z2Nat.id by lia. rewrite B5.
      unfold fields_bits at 2. cbn [flat_map]. fold (fields_bits fs). f_equal.
      unfold fbits. cbn [fst snd]. rewrite <- A4. apply bits_at_ext. intros j Hj. apply B4; lia.
Qed.

(** ** reading *)
Lemma b2z_range b : 0 <= Z.b2z b <= 1. Proof. destruct b; cbn; lia. Qed.
Lemma buf_bit_spec buff i : 0 <= i -> buf_bit buff i = Z.b2z (bitat buff i).
Proof.
  intros Hi. unfold buf_bit, bitat. change 1 with (Z.ones 1). rewrite Z.land_ones by lia.
  change (2^1) with 2. rewrite <- Z.bit0_mod. rewrite Z.shiftr_spec by lia. f_equal.
Qed.

Lemma getbit_loop_spec w n : forall buff i acc, 0 <= i -> 0 <= acc -> 0 <= w ->
  acc * 2 ^ Z.of_nat n + 2 ^ Z.of_nat n <= 2 ^ w ->
  getbit_loop w n buff i acc = acc * 2 ^ Z.of_nat n + val_be (bits_at buff i n).
Proof.
  induction n as [|n IH]; intros buff i acc Hi Ha Hw Hb.
  - cbn. lia.
  - cbn [getbit_loop bits_at]. rewrite buf_bit_spec by lia. rewrite Z.shiftl_mul_pow2 by lia. change (2^1) with 2.
    replace (Z.of_nat (S n)) with (Z.of_nat n + 1) in Hb |- * by lia.
    rewrite Z.pow_add_r in Hb |- * by lia. change (2^1) with 2 in *.
    pose proof (b2z_range (bitat buff i)) as Hr.
    assert (Hp : 0 < 2 ^ Z.of_nat n) by (apply Z.pow_pos_nonneg; lia).
    assert (Hs : 0 <= acc * 2 + Z.b2z (bitat buff i) < 2 ^ w) by nia.
    rewrite Z.mod_small by exact Hs.
    rewrite IH; [|lia|lia|lia|nia].
    rewrite val_be_cons. unfold len. rewrite length_bits_at. lia.
Qed.

Lemma getbitu_spec buff pos ln : 0 <= pos -> 0 <= ln <= 32 -> getbitu buff pos ln = val_be (bits_at buff pos (Z.to_nat ln)).
Proof.
  intros Hp Hl. unfold getbitu. rewrite getbit_loop_spec; [lia|lia|lia|lia|].
  rewrite Z2Nat.id by lia. cbn [Z.mul Z.add]. apply Z.pow_le_mono_r; lia.
Qed.
Lemma getbitul_spec buff pos ln : 0 <= pos -> 0 <= ln <= 64 -> getbitul buff pos ln = val_be (bits_at buff pos (Z.to_nat ln)).
Proof.
  intros Hp Hl. unfold getbitul. rewrite getbit_loop_spec; [lia|lia|lia|lia|].
  rewrite Z2Nat.id by lia. cbn [Z.mul Z.add]. apply Z.pow_le_mono_r; lia.
Qed.

(** sign extension: (x ^ m) - m with m = 2^(n-1) *)
Lemma lxor_pow2 x n : 0 <= n -> Z.lxor x (2 ^ n) = if Z.testbit x n then x - 2 ^ n else x + 2 ^ n.
Proof.
  intros Hn. destruct (Z.testbit x n) eqn:E.
  - assert (x = Z.lor (Z.ldiff x (2^n)) (2^n)) as Hx.
    { apply Z.bits_inj'. intros k Hk. rewrite Z.lor_spec, Z.ldiff_spec, Z.pow2_bits_eqb by lia.
      destruct (Z.eqb_spec n k); [subst; rewrite E; now rewrite orb_true_r|]. cbn [negb]. now rewrite andb_true_r, orb_false_r. }
    assert (Hd : Z.land (Z.ldiff x (2^n)) (2^n) = 0) by (apply Z.bits_inj'; intros k Hk; rewrite Z.land_spec, Z.ldiff_spec, Z.bits_0; destruct (Z.testbit x k), (Z.testbit (2^n) k); reflexivity).
    rewrite lor_add in Hx by exact Hd.
    assert (Z.lxor x (2^n) = Z.ldiff x (2^n)).
    { apply Z.bits_inj'. intros k Hk. rewrite Z.lxor_spec, Z.ldiff_spec, Z.pow2_bits_eqb by lia.
      destruct (Z.eqb_spec n k); [subst; rewrite E; reflexivity|]. cbn [negb]. now rewrite andb_true_r, xorb_false_r. }
    lia.
  - rewrite Z.add_nocarry_lxor; [reflexivity|].
    apply Z.bits_inj'. intros k Hk. rewrite Z.land_spec, Z.bits_0, Z.pow2_bits_eqb by lia.
    destruct (Z.eqb_spec n k); [subst; rewrite E; reflexivity|apply andb_false_r].
Qed.

Lemma testbit_top x n : 1 <= n -> 0 <= x < 2 ^ n -> Z.testbit x (n - 1) = (2 ^ (n - 1) <=? x).
Proof.
  intros Hn Hx.
  assert (Hp : 2 ^ n = 2 * 2 ^ (n - 1)) by (rewrite <- Z.pow_succ_r by lia; f_equal; lia).
  assert (H0 : 0 < 2 ^ (n-1)) by (apply Z.pow_pos_nonneg; lia).
  destruct (Z.leb_spec (2^(n-1)) x) as [H|H].
  - apply Z.testbit_true; [lia|]. assert (x / 2 ^ (n-1) = 1) as ->; [|reflexivity].
    symmetry. apply Z.div_unique with (r := x - 2^(n-1)); lia.
  - apply Z.testbit_false; [lia|]. rewrite Z.div_small by lia. reflexivity.
Qed.

Lemma sign_extend w n x : (w = 32 \/ w = 64) -> 1 <= n <= w -> 0 <= x < 2 ^ n ->
  to_signed w (Z.lxor (to_signed w x) (to_signed w (Z.shiftl 1 (n - 1))) - to_signed w (Z.shiftl 1 (n - 1)))
  = to_signed n x.
Proof.
  intros Hw Hn Hx. rewrite Z.shiftl_1_l.
  assert (Hp : 2 ^ n = 2 * 2 ^ (n - 1)) by (rewrite <- Z.pow_succ_r by lia; f_equal; lia).
  assert (Hpw : 2 ^ w = 2 * 2 ^ (w - 1)) by (rewrite <- Z.pow_succ_r by lia; f_equal; lia).
  assert (H0 : 0 < 2 ^ (n-1)) by (apply Z.pow_pos_nonneg; lia).
  assert (Hnw : 2 ^ (n-1) <= 2 ^ (w-1)) by (apply Z.pow_le_mono_r; lia).
  destruct (Z.eq_dec n w) as [->|Hne].
  - assert (Hm : to_signed w (2 ^ (w-1)) = - 2^(w-1)).
    { unfold to_signed. rewrite Z.mod_small by lia. destruct (Z.ltb_spec (2^(w-1)) (2^(w-1))); lia. }
    rewrite Hm.
    assert (Hmod : forall a, to_signed w (a - - 2^(w-1)) = to_signed w (a + 2^(w-1))) by (intros; f_equal; lia).
    rewrite Hmod.
    assert (Hx' : Z.lxor (to_signed w x) (- 2 ^ (w-1)) = to_signed w x mod 2^(w-1) + (if x <? 2^(w-1) then - 2^(w-1) else 0)).
    { assert (- 2^(w-1) = Z.lnot (Z.ones (w-1))) as -> by (rewrite Z.ones_equiv; unfold Z.lnot; lia).
      unfold to_signed. rewrite Z.mod_small by lia.
      destruct (Z.ltb_spec x (2^(w-1))) as [H|H].
      - (* x < 2^(w-1) *)

        assert (Z.lxor x (Z.lnot (Z.ones (w-1))) = x + Z.lnot (Z.ones (w-1))) as ->.
        { rewrite <- Z.add_nocarry_lxor; [reflexivity|].
          apply Z.bits_inj'. intros k Hk. rewrite Z.land_spec, Z.bits_0, Z.lnot_spec by lia.
          destruct (Z.lt_ge_cases k (w-1)).
          - rewrite Z.ones_spec_low by lia. apply andb_false_r.
          - rewrite (testbit_small x k (w-1)) by lia. reflexivity. }
        rewrite Z.mod_small by lia. reflexivity.
      - rewrite Z.add_0_r.
        assert (Hy : (x - 2^w) mod 2^(w-1) = x - 2^(w-1)).
        { symmetry. apply Z.mod_unique with (q := -1); lia. }
        rewrite Hy.
        apply Z.bits_inj'. intros k Hk. rewrite Z.lxor_spec, Z.lnot_spec by lia.
        destruct (Z.lt_ge_cases k (w-1)).
        + rewrite Z.ones_spec_low by lia. cbn [negb]. rewrite xorb_false_r.
          rewrite <- (Z.mod_pow2_bits_low (x - 2^w) (w-1) k) by lia. rewrite Hy. reflexivity.
        + rewrite Z.ones_spec_high by lia. cbn [negb].
          rewrite (testbit_small (x - 2^(w-1)) k (w-1)) by lia.
          assert (Z.testbit (x - 2^w) k = true) as ->; [|reflexivity].
          replace (x - 2^w) with (Z.lnot (2^w - 1 - x)) by (unfold Z.lnot; lia). rewrite Z.lnot_spec by lia.
          rewrite (testbit_small _ k (w-1)) by lia. reflexivity. }
    rewrite Hx'. unfold to_signed at 2. rewrite (Z.mod_small x) by lia.
    destruct (Z.ltb_spec x (2^(w-1))) as [H|H].
    + rewrite Z.mod_small by lia. replace (x + - 2^(w-1) + 2^(w-1)) with x by lia.
      reflexivity.
    + assert (Hy : (x - 2^w) mod 2^(w-1) = x - 2^(w-1)) by (symmetry; apply Z.mod_unique with (q := -1); lia).
      rewrite Hy. replace (x - 2^(w-1) + 0 + 2^(w-1)) with x by lia. reflexivity.
  - assert (Hlt : 2^n <= 2^(w-1)) by (apply Z.pow_le_mono_r; lia).
    assert (Hm : to_signed w (2 ^ (n-1)) = 2^(n-1)).
    { unfold to_signed. rewrite Z.mod_small by lia. destruct (Z.ltb_spec (2^(n-1)) (2^(w-1))); lia. }
    assert (Hxx : to_signed w x = x).
    { unfold to_signed. rewrite Z.mod_small by lia. destruct (Z.ltb_spec x (2^(w-1))); lia. }
    rewrite Hm, Hxx. rewrite lxor_pow2 by lia. rewrite testbit_top by lia.
    assert (HT : forall y, - 2^(w-1) <= y < 2^(w-1) -> to_signed w y = y).
    { intros y Hy. unfold to_signed. destruct (Z.lt_ge_cases y 0).
      - rewrite <- (Z.mod_unique y (2^w) (-1) (y + 2^w)) by lia. destruct (Z.ltb_spec (y + 2^w) (2^(w-1))); lia.
      - rewrite Z.mod_small by lia. destruct (Z.ltb_spec y (2^(w-1))); lia. }
    unfold to_signed at 2. rewrite (Z.mod_small x (2^n)) by lia.
    destruct (Z.leb_spec (2^(n-1)) x), (Z.ltb_spec x (2^(n-1))); try lia; rewrite HT by lia; lia.
Qed.

Lemma to_signed_mod n v : 1 <= n -> - 2 ^ (n-1) <= v < 2 ^ (n-1) -> to_signed n (v mod 2^n) = v.
Proof.
  intros Hn Hv. assert (Hp : 2 ^ n = 2 * 2 ^ (n - 1)) by (rewrite <- Z.pow_succ_r by lia; f_equal; lia).
  unfold to_signed. rewrite Z.mod_mod by lia. destruct (Z.lt_ge_cases v 0).
  - rewrite <- (Z.mod_unique v (2^n) (-1) (v + 2^n)) by lia. destruct (Z.ltb_spec (v + 2^n) (2^(n-1))); lia.
  - rewrite Z.mod_small by lia. destruct (Z.ltb_spec v (2^(n-1))); lia.
Qed.

(** ** the exported laws *)
Section Laws.
Variables (buff : list Z) (pos ln : Z).
Hypothesis Hpos : 0 <= pos.
Hypothesis Hfit : pos + ln <= 8 * len buff.

Lemma setu_spec v : 1 <= ln <= 32 ->
  len (setbitu buff pos ln v) = len buff /\ (bytes buff -> bytes (setbitu buff pos ln v)) /\
  (forall j, 0 <= j -> ~ (pos <= j < pos + ln) -> bitat (setbitu buff pos ln v) j = bitat buff j) /\
  bits_at (setbitu buff pos ln v) pos (Z.to_nat ln) = bits_be (Z.to_nat ln) v.
Proof.
  intros H. pose proof (put_one_spec buff pos ln v ltac:(lia) Hpos Hfit) as P. cbn zeta in P.
  destruct (Z.leb_spec ln 32); [exact P|lia].
Qed.
Lemma setul_spec v : 1 <= ln <= 64 ->
  len (setbitul buff pos ln v) = len buff /\ (bytes buff -> bytes (setbitul buff pos ln v)) /\
  (forall j, 0 <= j -> ~ (pos <= j < pos + ln) -> bitat (setbitul buff pos ln v) j = bitat buff j) /\
  bits_at (setbitul buff pos ln v) pos (Z.to_nat ln) = bits_be (Z.to_nat ln) v.
Proof.
  intros H. destruct (Z.le_gt_cases ln 32) as [H32|H32].
  - (* the 64-bit routine writes the same bits as the 32-bit one *)
    assert (E : setbitul buff pos ln v = setbit_loop (Z.to_nat ln) buff pos (Z.shiftl 1 (ln-1)) (v mod 2^64)).
    { unfold setbitul. destruct (Z.leb_spec ln 0), (Z.ltb_spec 64 ln); cbn [orb]; try lia. reflexivity. }
    assert (E2 : setbitu buff pos ln (v mod 2^64) = setbit_loop (Z.to_nat ln) buff pos (Z.shiftl 1 (ln-1)) ((v mod 2^64) mod 2^32)).
    { unfold setbitu. destruct (Z.leb_spec ln 0), (Z.ltb_spec 32 ln); cbn [orb]; try lia. reflexivity. }
    pose proof (setbit_loop_spec (Z.to_nat ln) buff pos (v mod 2^64) ltac:(lia) ltac:(lia)) as L. cbn zeta in L.
    rewrite Z2Nat.id in L by lia. rewrite <- E in L. destruct L as (L1 & L2 & L3).
    split; [exact L1|]. split; [exact L2|]. split.
    + intros j Hj Hnj. rewrite L3 by lia. destruct (Z.leb_spec pos j), (Z.ltb_spec j (pos + ln)); cbn [andb]; try reflexivity; lia.
    + destruct (setu_spec (v mod 2^64) ltac:(lia)) as (U1 & U2 & U3 & U4).
      rewrite <- (bits_be_mod (Z.to_nat ln) v 64) by lia. rewrite <- U4.
      apply bits_at_ext. intros j Hj. rewrite L3 by lia.
      pose proof (setbit_loop_spec (Z.to_nat ln) buff pos ((v mod 2^64) mod 2^32) ltac:(lia) ltac:(lia)) as M. cbn zeta in M.
      rewrite Z2Nat.id in M by lia. rewrite <- E2 in M. destruct M as (_ & _ & M3). rewrite M3 by lia.
      destruct (Z.leb_spec pos j), (Z.ltb_spec j (pos + ln)); cbn [andb]; try reflexivity; try lia.
      rewrite (Z.mod_pow2_bits_low _ 32) by lia. reflexivity.
  - pose proof (put_one_spec buff pos ln v ltac:(lia) Hpos Hfit) as P. cbn zeta in P.
    destruct (Z.leb_spec ln 32); [lia|exact P].
Qed.

Lemma get_set_u v : 1 <= ln <= 32 -> getbitu (setbitu buff pos ln v) pos ln = v mod 2 ^ ln.
Proof.
  intros H. rewrite getbitu_spec by lia. destruct (setu_spec v H) as (_ & _ & _ & ->).
  rewrite val_bits_be. f_equal. f_equal. lia.
Qed.
Lemma get_set_ul v : 1 <= ln <= 64 -> getbitul (setbitul buff pos ln v) pos ln = v mod 2 ^ ln.
Proof.
  intros H. rewrite getbitul_spec by lia. destruct (setul_spec v H) as (_ & _ & _ & ->).
  rewrite val_bits_be. f_equal. f_equal. lia.
Qed.
Lemma mod_mod_pow a w n : 0 <= n <= w -> (a mod 2^w) mod 2^n = a mod 2^n.
Proof.
  intros H. symmetry. replace w with (n + (w - n)) by lia. rewrite Z.pow_add_r by lia.
  rewrite Z.rem_mul_r by (try apply Z.pow_nonzero; try apply Z.pow_pos_nonneg; lia).
  rewrite Z.mul_comm, Z.mod_add by (apply Z.pow_nonzero; lia). rewrite Z.mod_mod by (apply Z.pow_nonzero; lia). reflexivity.
Qed.
Lemma get_set_s v : 1 <= ln <= 32 -> - 2 ^ (ln - 1) <= v < 2 ^ (ln - 1) -> getbits (setbits buff pos ln v) pos ln = v.
Proof.
  intros H Hv. unfold getbits, setbits. rewrite get_set_u by lia. rewrite mod_mod_pow by lia.
  rewrite sign_extend; [|lia|lia|apply Z.mod_pos_bound; lia]. apply to_signed_mod; lia.
Qed.
Lemma get_set_sl v : 1 <= ln <= 64 -> - 2 ^ (ln - 1) <= v < 2 ^ (ln - 1) -> getbitsl (setbitsl buff pos ln v) pos ln = v.
Proof.
  intros H Hv. unfold getbitsl, setbitsl. rewrite get_set_ul by lia. rewrite mod_mod_pow by lia.
  rewrite sign_extend; [|lia|lia|apply Z.mod_pos_bound; lia]. apply to_signed_mod; lia.
Qed.
End Laws.

Lemma get_set_sm buff pos ln v : 0 <= pos -> pos + ln <= 8 * len buff -> 2 <= ln <= 32 -> - 2 ^ (ln-1) < v < 2 ^ (ln-1) ->
  get_sign_magnitude_bit (set_sign_magnitude_bit buff pos ln v) pos ln = v.
Proof.
  intros Hp Hf Hl Hv. unfold get_sign_magnitude_bit, set_sign_magnitude_bit.
  set (b1 := setbitu buff pos 1 _).
  destruct (setu_spec buff pos 1 Hp ltac:(lia) (if v <? 0 then 1 else 0) ltac:(lia)) as (A1 & _ & _ & A4). fold b1 in A1, A4.
  rewrite get_set_u by lia.
  set (mag := if v <? 0 then - v else v).
  destruct (setu_spec b1 (pos + 1) (ln - 1) ltac:(lia) ltac:(lia) mag ltac:(lia)) as (B1 & _ & B3 & _).
  assert (Hm : 0 <= mag < 2 ^ (ln-1)) by (unfold mag; destruct (Z.ltb_spec v 0); lia).
  rewrite Z.mod_small by exact Hm.
  assert (H31 : 2 ^ (ln-1) <= 2 ^ 31) by (apply Z.pow_le_mono_r; lia).
  assert (Ht : to_signed 32 mag = mag).
  { unfold to_signed. rewrite Z.mod_small by lia. change (32 - 1) with 31. destruct (Z.ltb_spec mag (2^31)); lia. }
  rewrite Ht. rewrite getbitu_spec by lia. change (Z.to_nat 1) with 1%nat. cbn [bits_at].
  rewrite B3 by lia. change (Z.to_nat 1) with 1%nat in A4. cbn [bits_at bits_be] in A4. injection A4 as A4. rewrite A4.
  unfold mag. destruct (Z.ltb_spec v 0); cbn; lia.
Qed.
