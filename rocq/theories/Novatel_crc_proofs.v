(** get_crc computes the CRC-32 remainder of Novatel_spec *)
From Verif Require Import Base Bitstring Bytestream_model Ixcom_spec Ixcom_proofs Novatel_model Novatel_spec.

Fixpoint lsb (n : nat) (v : Z) : list bool := match n with O => [] | S n => Z.testbit v 0 :: lsb n (Z.shiftr v 1) end.
Lemma lsb_snoc n : forall v, lsb (S n) v = lsb n v ++ [Z.testbit v (Z.of_nat n)].
Proof.
  induction n as [|n IH]; intros v; [reflexivity|].
  change (lsb (S (S n)) v) with (Z.testbit v 0 :: lsb (S n) (Z.shiftr v 1)). rewrite IH. cbn [lsb app]. f_equal. f_equal. f_equal.
  rewrite Z.shiftr_spec by lia. f_equal. lia.
Qed.
Lemma rev_bits_be n v : rev (bits_be n v) = lsb n v.
Proof. induction n as [|n IH]; [reflexivity|]. rewrite lsb_snoc, <- IH. reflexivity. Qed.
Lemma len_lsb n v : len (lsb n v) = Z.of_nat n.
Proof. rewrite <- rev_bits_be, len_rev. unfold len. f_equal. induction n; cbn; [reflexivity| f_equal; exact IHn]. Qed.

Lemma shift_eq c : crc32_shift c = Z.lxor (Z.shiftr c 1) (if Z.testbit c 0 then kCrc32Polynomial else 0).
Proof.
  unfold crc32_shift. replace (Z.land c 1) with (Z.b2z (Z.testbit c 0)).
  - destruct (Z.testbit c 0); cbn [Z.b2z]; [reflexivity| rewrite Z.lxor_0_r; reflexivity].
  - change 1 with (Z.ones 1). rewrite Z.land_ones by lia. rewrite Z.bit0_mod. reflexivity.
Qed.
Lemma shift_lxor a b : crc32_shift (Z.lxor a b) = Z.lxor (crc32_shift a) (crc32_shift b).
Proof.
  rewrite !shift_eq, Z.shiftr_lxor, Z.lxor_spec. apply Z.bits_inj'. intros k _. rewrite !Z.lxor_spec.
  destruct (Z.testbit a 0), (Z.testbit b 0); cbn [xorb]; rewrite ?Z.bits_0; repeat match goal with |- context [Z.testbit ?x k] => destruct (Z.testbit x k) end; reflexivity.
Qed.
Lemma shift_even y : crc32_shift (Z.shiftl y 1) = y.
Proof.
  rewrite shift_eq, Z.shiftl_spec_low by lia. rewrite Z.lxor_0_r, Z.shiftr_shiftl_l by lia. apply Z.shiftl_0_r.
Qed.
Lemma split0 b : b = Z.lxor (Z.b2z (Z.testbit b 0)) (Z.shiftl (Z.shiftr b 1) 1).
Proof.
  apply Z.bits_inj'. intros k Hk. rewrite Z.lxor_spec. destruct (Z.eq_dec k 0) as [->|].
  - rewrite Z.shiftl_spec_low by lia. rewrite Z.b2z_bit0, xorb_false_r. reflexivity.
  - rewrite Z.shiftl_spec, Z.shiftr_spec by lia. replace (k - 1 + 1) with k by lia.
    replace (Z.testbit (Z.b2z (Z.testbit b 0)) k) with false; [symmetry; apply xorb_false_l|]. destruct (Z.testbit b 0); cbn [Z.b2z]; [|now rewrite Z.bits_0].
    symmetry. apply Z.bits_above_log2; cbn; lia.
Qed.
Definition feed (r : Z) (c : bool) : Z := crc32_shift (Z.lxor r (Z.b2z c)).
Lemma iter_S {A} n (f : A -> A) x : Nat.iter (S n) f x = Nat.iter n f (f x).
Proof. induction n as [|n IH]; [reflexivity|]. cbn [Nat.iter nat_rect] in *. change (f (Nat.iter (S n) f x) = f (Nat.iter n f (f x))). f_equal. exact IH. Qed.
Lemma iter_feed n : forall r b, Nat.iter n crc32_shift (Z.lxor r b) = Z.lxor (fold_left feed (lsb n b) r) (Z.shiftr b (Z.of_nat n)).
Proof.
  induction n as [|n IH]; intros r b; [reflexivity|].
  rewrite iter_S. rewrite (split0 b) at 1. rewrite <- Z.lxor_assoc, shift_lxor, shift_even. fold (feed r (Z.testbit b 0)).
  rewrite IH. cbn [lsb fold_left]. f_equal. rewrite Z.shiftr_shiftr by lia. f_equal. lia.
Qed.
Lemma iter_lxor n : forall a b, Nat.iter n crc32_shift (Z.lxor a b) = Z.lxor (Nat.iter n crc32_shift a) (Nat.iter n crc32_shift b).
Proof. induction n as [|n IH]; intros a b; [reflexivity|]. rewrite !iter_S, shift_lxor. apply IH. Qed.
Lemma iter_high n : forall h, Nat.iter n crc32_shift (Z.shiftl h (Z.of_nat n)) = h.
Proof.
  induction n as [|n IH]; intros h; [apply Z.shiftl_0_r|]. rewrite iter_S. replace (Z.of_nat (S n)) with (Z.of_nat n + 1) by lia.
  rewrite <- Z.shiftl_shiftl by lia. rewrite shift_even. apply IH.
Qed.
Lemma split8 x : x = Z.lxor (Z.shiftl (Z.shiftr x 8) 8) (Z.land x 0xFF).
Proof.
  apply Z.bits_inj'. intros k Hk. change 0xFF with (Z.ones 8). rewrite Z.lxor_spec, Z.land_spec, Z.testbit_ones_nonneg by lia. rewrite Z.shiftl_spec by lia.
  destruct (Z.ltb_spec k 8).
  - rewrite (Z.testbit_neg_r _ (k - 8)) by lia. rewrite andb_true_r, xorb_false_l. reflexivity.
  - rewrite andb_false_r, xorb_false_r, Z.shiftr_spec by lia. f_equal. lia.
Qed.
Lemma step_feed r b : 0 <= r < 2 ^ 32 -> byte b -> crc32_step r b = fold_left feed (lsb 8 b) r.
Proof.
  intros Hr Hb. unfold byte in Hb. unfold crc32_step, crc32_byte_value.
  assert (E : Nat.iter 8 crc32_shift (Z.lxor r b) = Z.lxor (Z.shiftr r 8) (Nat.iter 8 crc32_shift (Z.land (Z.lxor r b) 0xFF))).
  { rewrite (split8 (Z.lxor r b)) at 1. rewrite iter_lxor. f_equal. change 8 with (Z.of_nat 8) at 2. rewrite iter_high. rewrite Z.shiftr_lxor.
    replace (Z.shiftr b 8) with 0; [apply Z.lxor_0_r|]. rewrite Z.shiftr_div_pow2 by lia. symmetry. apply Z.div_small. lia. }
  rewrite iter_feed in E. replace (Z.shiftr b (Z.of_nat 8)) with 0 in E by (rewrite Z.shiftr_div_pow2 by lia; symmetry; apply Z.div_small; cbn; lia).
  rewrite Z.lxor_0_r in E. rewrite E. f_equal. change 0x00FFFFFF with (Z.ones 24). rewrite Z.land_ones by lia. apply Z.mod_small.
  rewrite Z.shiftr_div_pow2 by lia. lia.
Qed.

(** the register, most significant coefficient first *)
Definition R (r : Z) : Z := val_be (lsb 32 r).
Lemma val_be_snoc l c : val_be (l ++ [c]) = 2 * val_be l + Z.b2z c.
Proof. unfold val_be. rewrite fold_left_app. reflexivity. Qed.
Lemma val_be_lsb_bit n : forall v k, 0 <= k -> Z.testbit (val_be (lsb n v)) k = (k <? Z.of_nat n) && Z.testbit v (Z.of_nat n - 1 - k).
Proof.
  induction n as [|n IH]; intros v k Hk.
  - rewrite (proj2 (Z.ltb_ge k (Z.of_nat 0))) by lia. apply Z.bits_0.
  - rewrite lsb_snoc, val_be_snoc. destruct (Z.eq_dec k 0) as [->|].
    + rewrite Z.testbit_0_r. replace (Z.of_nat (S n) - 1 - 0) with (Z.of_nat n) by lia. replace (0 <? Z.of_nat (S n)) with true by lia. reflexivity.
    + replace k with (Z.succ (k - 1)) at 1 by lia. rewrite Z.testbit_succ_r by lia. rewrite IH by lia.
      replace (k - 1 <? Z.of_nat n) with (k <? Z.of_nat (S n)) by lia. f_equal. f_equal. lia.
Qed.
Lemma R_bit r k : 0 <= k -> Z.testbit (R r) k = (k <? 32) && Z.testbit r (31 - k).
Proof. intros H. unfold R. rewrite val_be_lsb_bit by exact H. reflexivity. Qed.
Lemma poly_rev : forallb (fun n => let k := Z.of_nat n in Bool.eqb (Z.testbit CRC32_POLY k) (Z.testbit kCrc32Polynomial (31 - k))) (seq 0 32) = true.
Proof. vm_compute. reflexivity. Qed.
Lemma poly_bit k : 0 <= k < 32 -> Z.testbit CRC32_POLY k = Z.testbit kCrc32Polynomial (31 - k).
Proof.
  intros H. pose proof poly_rev as T. rewrite forallb_forall in T. specialize (T (Z.to_nat k)). rewrite in_seq, Z2Nat.id in T by lia.
  apply eqb_prop. apply T. lia.
Qed.
Lemma small_bit r n k : 0 <= r < 2 ^ n -> n <= k -> Z.testbit r k = false.
Proof.
  intros H Hk. destruct (Z.le_gt_cases 0 n); [|rewrite Z.pow_neg_r in H by lia; lia].
  rewrite <- (Z.mod_small r (2 ^ n)) by lia. apply Z.mod_pow2_bits_high. lia.
Qed.
Lemma feed_range r c : 0 <= r < 2 ^ 32 -> 0 <= feed r c < 2 ^ 32.
Proof.
  intros H. unfold feed. rewrite shift_eq. apply lxor_lt; [lia| |destruct (Z.testbit _ 0); unfold kCrc32Polynomial; lia].
  assert (0 <= Z.lxor r (Z.b2z c) < 2 ^ 32) by (apply lxor_lt; [lia|exact H|destruct c; cbn; lia]).
  rewrite Z.shiftr_div_pow2 by lia. lia.
Qed.
Lemma feed_poly r c : 0 <= r < 2 ^ 32 ->
  Z.lxor (2 * R r) (Z.b2z c * 2 ^ 32) = Z.lxor (if xorb (Z.testbit r 0) c then CRC32_POLY else 0) (R (feed r c)).
Proof.
  intros H. apply Z.bits_inj'. intros k Hk. rewrite !Z.lxor_spec, (R_bit (feed r c)) by lia.
  set (t := xorb (Z.testbit r 0) c). rewrite <- Z.shiftl_mul_pow2 by lia. rewrite Z.shiftl_spec by lia.
  assert (T : Z.testbit (Z.lxor r (Z.b2z c)) 0 = t) by (rewrite Z.lxor_spec, Z.b2z_bit0; reflexivity).
  assert (HI : forall j, 1 <= j -> Z.testbit (Z.lxor r (Z.b2z c)) j = Z.testbit r j).
  { intros j Hj. rewrite Z.lxor_spec. replace (Z.testbit (Z.b2z c) j) with false; [apply xorb_false_r|]. symmetry. apply (small_bit _ 1); [destruct c; cbn; lia| lia]. }
  assert (L : Z.testbit (2 * R r) k = (0 <? k) && (k - 1 <? 32) && Z.testbit r (32 - k)).
  { destruct (Z.eq_dec k 0) as [->|]; [rewrite Z.testbit_even_0; reflexivity|]. replace k with (Z.succ (k - 1)) at 1 by lia.
    rewrite Z.testbit_even_succ by lia. rewrite R_bit by lia. replace (0 <? k) with true by lia. cbn [andb]. f_equal. f_equal. lia. }
  rewrite L. unfold feed. rewrite shift_eq, T.
  destruct (Z.ltb_spec k 32).
  - rewrite Z.lxor_spec, Z.shiftr_spec by lia. rewrite HI by lia. replace (31 - k + 1) with (32 - k) by lia. rewrite (Z.testbit_neg_r _ (k - 32)) by lia. rewrite xorb_false_r. cbn [andb].
    replace (k - 1 <? 32) with true by lia. rewrite andb_true_r.
    destruct (Z.eq_dec k 0) as [->|].
    + rewrite (small_bit r 32) by lia. destruct t; reflexivity.
    + replace (0 <? k) with true by lia. cbn [andb]. destruct t; [rewrite poly_bit by lia; destruct (Z.testbit r (32 - k)), (Z.testbit kCrc32Polynomial (31 - k)); reflexivity|].
      rewrite !Z.bits_0, xorb_false_l, xorb_false_r. reflexivity.
  - cbn [andb]. rewrite xorb_false_r. destruct (Z.eq_dec k 32) as [->|].
    + change (32 - 32) with 0. rewrite Z.b2z_bit0. cbn [andb Z.ltb]. change ((0 <? 32) && (32 - 1 <? 32) && Z.testbit r 0) with (Z.testbit r 0). fold t. destruct t; reflexivity.
    + replace (k - 1 <? 32) with false by lia. rewrite andb_false_r. cbn [andb]. rewrite xorb_false_l. replace (Z.testbit (Z.b2z c) (k - 32)) with false by (symmetry; apply (small_bit _ 1); [destruct c; cbn; lia|lia]).
      destruct t; [|now rewrite Z.bits_0]. symmetry. apply (small_bit _ 33); [vm_compute; split; congruence| lia].
Qed.
Definition inv (bits : list bool) (r : Z) : Prop := 0 <= r < 2 ^ 32 /\ exists q, Z.lxor (pmul q CRC32_POLY) (R r) = val_be bits * 2 ^ 32.
Lemma val_be_nonneg l : 0 <= val_be l.
Proof. induction l as [|c l IH] using rev_ind; [cbn; lia|]. rewrite val_be_snoc. destruct c; cbn [Z.b2z]; lia. Qed.
Lemma inv_feed bits r c : inv bits r -> inv (bits ++ [c]) (feed r c).
Proof.
  intros [Hr (q & Q)]. split; [apply feed_range, Hr|]. exists (q ++ [xorb (Z.testbit r 0) c]).
  assert (G : 0 <= CRC32_POLY) by (vm_compute; congruence). rewrite pmul_app by exact G. change (len [xorb (Z.testbit r 0) c]) with 1.
  replace (pmul [xorb (Z.testbit r 0) c] CRC32_POLY) with (if xorb (Z.testbit r 0) c then CRC32_POLY else 0) by (destruct (xorb _ _); reflexivity).
  rewrite Z.lxor_assoc, <- feed_poly by exact Hr. rewrite <- Z.lxor_assoc. rewrite (Z.mul_comm 2 (R r)). change 2 with (2 ^ 1) at 1. rewrite <- Z.shiftl_mul_pow2 by lia.
  rewrite <- Z.shiftl_lxor, Q. rewrite val_be_snoc, Z.mul_add_distr_r. pose proof (val_be_nonneg bits).
  replace (Z.shiftl (val_be bits * 2 ^ 32) 1) with (2 * val_be bits * 2 ^ 32) by (rewrite Z.shiftl_mul_pow2 by lia; lia).
  symmetry. apply Z.add_nocarry_lxor. rewrite <- !Z.shiftl_mul_pow2 by lia. rewrite <- Z.shiftl_land. replace (Z.land (2 * val_be bits) (Z.b2z c)) with 0; [apply Z.shiftl_0_l|].
  destruct c; cbn [Z.b2z]; [|symmetry; apply Z.land_0_r]. change 1 with (Z.ones 1). rewrite Z.land_ones by lia. change (2 ^ 1) with 2. lia.
Qed.
Lemma inv_feeds cs : forall bits r, inv bits r -> inv (bits ++ cs) (fold_left feed cs r).
Proof.
  induction cs as [|c cs IH]; intros bits r H; [rewrite app_nil_r; exact H|]. cbn [fold_left].
  replace (bits ++ c :: cs) with ((bits ++ [c]) ++ cs) by (rewrite <- app_assoc; reflexivity). apply IH, inv_feed, H.
Qed.
Lemma get_crc_inv l : forall bits r, bytes l -> inv bits r -> inv (bits ++ bits_lsb_first l) (fold_left crc32_step l r).
Proof.
  induction l as [|b l IH]; intros bits r Hb H; [cbn; rewrite app_nil_r; exact H|]. inversion Hb; subst. cbn [fold_left].
  change (bits_lsb_first (b :: l)) with (rev (bits_be 8 b) ++ bits_lsb_first l). rewrite app_assoc. apply IH; [assumption|].
  rewrite step_feed by (try assumption; apply H). rewrite rev_bits_be. apply inv_feeds, H.
Qed.
Lemma inv_0 : inv [] 0.
Proof. split; [lia|]. exists []. vm_compute. reflexivity. Qed.
Lemma R_eq r : val_be (rev (bits_be 32 r)) = R r.
Proof. unfold R. f_equal. apply rev_bits_be. Qed.
Lemma is_crc32_R l r : is_crc32 l r <-> (0 <= r < 2 ^ 32 /\ exists q, Z.lxor (pmul q CRC32_POLY) (R r) = val_be (bits_lsb_first l) * 2 ^ 32).
Proof. unfold is_crc32. rewrite R_eq. reflexivity. Qed.
Lemma inv_is bits r l : bits = bits_lsb_first l -> inv bits r -> is_crc32 l r.
Proof. intros -> H. apply is_crc32_R. exact H. Qed.
Lemma get_crc_spec l : bytes l -> is_crc32 l (get_crc l).
Proof. intros H. apply (inv_is ([] ++ bits_lsb_first l)); [reflexivity|]. unfold get_crc. apply get_crc_inv; [exact H| apply inv_0]. Qed.
Lemma pmul_big_gen g d : 0 < d -> 0 < g -> Z.log2 g = d -> forall q, pmul q g = 0 \/ 2 ^ d <= pmul q g.
Proof.
  intros Hd Hg Hl. induction q as [|b q IH] using rev_ind; [left; reflexivity|]. rewrite pmul_app by lia. change (len [b]) with 1.
  rewrite Z.shiftl_mul_pow2 by lia. change (2 ^ 1) with 2.
  replace (pmul [b] g) with (if b then g else 0) by (destruct b; reflexivity).
  assert (Gd : 2 ^ d <= g) by (rewrite <- Hl; apply Z.log2_spec; lia).
  destruct IH as [-> | IH]; [destruct b; [right; rewrite Z.mul_0_l, Z.lxor_0_l; lia| left; reflexivity]|]. right.
  set (a := pmul q g) in *. destruct b; [|rewrite Z.lxor_0_r; lia].
  assert (P : 0 < 2 ^ d) by (apply Z.pow_pos_nonneg; lia).
  assert (H : Z.log2 g < Z.log2 (a * 2)).
  { pose proof (Z.log2_le_mono (2 ^ (d + 1)) (a * 2)) as L. rewrite Z.log2_pow2 in L by lia. rewrite Z.pow_add_r in L by lia. lia. }
  assert (L : Z.log2 (Z.lxor (a * 2) g) = Z.log2 (a * 2)).
  { apply Z.log2_bits_unique.
    - rewrite Z.lxor_spec, Z.bit_log2 by lia. rewrite (Z.bits_above_log2 g) by lia. reflexivity.
    - intros m Hm. rewrite Z.lxor_spec, !Z.bits_above_log2 by lia. reflexivity. }
  assert (N : 0 <= Z.lxor (a * 2) g) by (apply Z.lxor_nonneg; lia).
  assert (NZ : Z.lxor (a * 2) g <> 0). { intros E. rewrite E in L. change (Z.log2 0) with 0 in L. lia. }
  destruct (Z.le_gt_cases (2 ^ d) (Z.lxor (a * 2) g)) as [G|G]; [exact G|].
  assert (Z.log2 (Z.lxor (a * 2) g) < d) by (apply Z.log2_lt_pow2; lia). lia.
Qed.
Lemma R_range r : 0 <= R r < 2 ^ 32.
Proof.
  split; [apply val_be_nonneg|]. destruct (Z.le_gt_cases (2 ^ 32) (R r)) as [G|G]; [|exact G]. exfalso.
  pose proof (Z.bit_log2 (R r) ltac:(lia)) as B. rewrite R_bit in B by apply Z.log2_nonneg.
  assert (Z.log2 (2 ^ 32) <= Z.log2 (R r)) by (apply Z.log2_le_mono; lia). change (Z.log2 (2 ^ 32)) with 32 in *.
  replace (Z.log2 (R r) <? 32) with false in B by lia. discriminate.
Qed.
Lemma R_inj a b : 0 <= a < 2 ^ 32 -> 0 <= b < 2 ^ 32 -> R a = R b -> a = b.
Proof.
  intros Ha Hb E. apply Z.bits_inj'. intros k Hk. destruct (Z.ltb_spec k 32).
  - pose proof (R_bit a (31 - k) ltac:(lia)) as A. pose proof (R_bit b (31 - k) ltac:(lia)) as B. rewrite E in A. rewrite A in B.
    replace (31 - k <? 32) with true in B by lia. replace (31 - (31 - k)) with k in B by lia. exact B.
  - rewrite !(small_bit _ 32) by lia. reflexivity.
Qed.
Lemma crc32_unique l r r' : is_crc32 l r -> is_crc32 l r' -> r = r'.
Proof.
  rewrite !is_crc32_R. intros [A (q & Q)] [A' (q' & Q')].
  assert (CG : 0 <= CRC32_POLY) by (vm_compute; congruence).
  assert (E : exists p, pmul p CRC32_POLY = Z.lxor (R r) (R r')).
  { exists (xors (repeat false (length q') ++ q) (repeat false (length q) ++ q')).
    rewrite pmul_xors; [|rewrite !app_length, !repeat_length; lia| exact CG]. rewrite !pmul_pad by exact CG.
    assert (Z.lxor (Z.lxor (pmul q CRC32_POLY) (R r)) (Z.lxor (pmul q' CRC32_POLY) (R r')) = 0) by (rewrite Q, Q'; apply Z.lxor_nilpotent).
    apply Z.lxor_eq. rewrite <- H. apply Z.bits_inj'. intros k _. rewrite !Z.lxor_spec. repeat match goal with |- context [Z.testbit ?a k] => destruct (Z.testbit a k) end; reflexivity. }
  destruct E as (p & E). pose proof (lxor_lt (R r) (R r') 32 ltac:(lia) (R_range r) (R_range r')) as B.
  destruct (pmul_big_gen CRC32_POLY 32 ltac:(lia) ltac:(vm_compute; reflexivity) eq_refl p) as [Z0|G]; [|lia].
  apply R_inj; [assumption..|]. apply Z.lxor_eq. congruence.
Qed.
Lemma crc32_iff l r : bytes l -> is_crc32 l r <-> r = get_crc l.
Proof.
  intros H. split; [intros C; exact (crc32_unique l _ _ C (get_crc_spec l H))|]. intros ->. apply get_crc_spec, H.
Qed.
