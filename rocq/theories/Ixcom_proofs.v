From Verif Require Import Base Bitstring Bytestream_model UbxFraming_model Ixcom_model Ixcom_spec.

(** ** the checksum *)
Lemma pmul_acc q g : forall a, 0 <= a -> 0 <= g ->
  fold_left (fun a b => Z.lxor (2 * a) (if b : bool then g else 0)) q a = Z.lxor (Z.shiftl a (len q)) (pmul q g).
Proof.
  unfold pmul. induction q as [|b q IH]; intros a Ha Hg.
  - cbn [fold_left]. rewrite Z.lxor_0_r. reflexivity.
  - cbn [fold_left]. rewrite IH; [|apply Z.lxor_nonneg; split; intros; [destruct b; lia| lia]| exact Hg].
    rewrite (IH (Z.lxor (2 * 0) (if b then g else 0))); [| change (2 * 0) with 0; rewrite Z.lxor_0_l; destruct b; lia| exact Hg].
    rewrite <- Z.lxor_assoc. f_equal. change (2 * 0) with 0. rewrite Z.lxor_0_l, Z.shiftl_lxor. f_equal.
    rewrite len_cons. pose proof (len_nonneg q). rewrite !Z.shiftl_mul_pow2 by lia. rewrite Z.pow_add_r by lia. ring.
Qed.
Lemma pmul_nonneg q g : 0 <= g -> 0 <= pmul q g.
Proof.
  intros Hg. unfold pmul. assert (G : forall q a, 0 <= a -> 0 <= fold_left (fun a b => Z.lxor (2 * a) (if b : bool then g else 0)) q a).
  { induction q0 as [|b q0 IH]; intros a Ha; [exact Ha|]. cbn [fold_left]. apply IH. apply Z.lxor_nonneg. split; intros; [destruct b; lia| lia]. }
  apply G. lia.
Qed.
Lemma pmul_app a b g : 0 <= g -> pmul (a ++ b) g = Z.lxor (Z.shiftl (pmul a g) (len b)) (pmul b g).
Proof. intros Hg. unfold pmul at 1. rewrite fold_left_app. apply pmul_acc; [apply pmul_nonneg, Hg| exact Hg]. Qed.

(** quotient of i x^16 by the generator, 8 bits *)
Fixpoint quot_bits (n : nat) (r : Z) : list bool :=
  match n with O => [] | S n => let t := Z.testbit r 23 in t :: quot_bits n (let s := Z.lxor (2 * r) (if t then CCITT * 2 ^ 8 else 0) in s) end.
Definition qb (i : Z) : list bool := quot_bits 8 (i * 2 ^ 16).
Lemma table_ok : forallb (fun n => let i := Z.of_nat n in
    (Z.lxor (pmul (qb i) CCITT) (znth 0 i crc_table) =? i * 2 ^ 16) && (0 <=? znth 0 i crc_table) && (znth 0 i crc_table <? 2 ^ 16)) (seq 0 256) = true.
Proof. vm_compute. reflexivity. Qed.

Lemma table_at i : 0 <= i < 256 -> Z.lxor (pmul (qb i) CCITT) (znth 0 i crc_table) = i * 2 ^ 16 /\ 0 <= znth 0 i crc_table < 2 ^ 16.
Proof.
  intros H. pose proof table_ok as T. rewrite forallb_forall in T. specialize (T (Z.to_nat i)). rewrite in_seq in T. specialize (T ltac:(lia)). cbv zeta in T. rewrite Z2Nat.id in T by lia. lia.
Qed.
Lemma qb_len i : len (qb i) = 8. Proof. reflexivity. Qed.
Lemma lxor_lt a b n : 0 <= n -> 0 <= a < 2 ^ n -> 0 <= b < 2 ^ n -> 0 <= Z.lxor a b < 2 ^ n.
Proof.
  intros Hn Ha Hb. assert (N : 0 <= Z.lxor a b) by (apply Z.lxor_nonneg; lia). split; [exact N|].
  destruct (Z.eq_dec (Z.lxor a b) 0) as [->|NZ]; [lia|]. apply Z.log2_lt_pow2; [lia|].
  pose proof (Z.log2_lxor a b ltac:(lia) ltac:(lia)) as L.
  destruct (Z.eq_dec n 0) as [->|Hn0]; [assert (a = 0) by lia; assert (b = 0) by lia; subst; cbn in NZ; lia|].
  assert (P : forall x, 0 <= x < 2 ^ n -> Z.log2 x < n).
  { intros x Hx. destruct (Z.eq_dec x 0) as [->|]; [change (Z.log2 0) with 0; lia|]. apply Z.log2_lt_pow2; lia. }
  pose proof (P a Ha). pose proof (P b Hb). lia.
Qed.
Lemma crc_byte_step r b : 0 <= r < 2 ^ 16 -> byte b ->
  0 <= crc_byte r b < 2 ^ 16 /\
  Z.lxor (pmul (qb (Z.lxor (Z.shiftr r 8) b)) CCITT) (crc_byte r b) = Z.lxor (r * 2 ^ 8) (b * 2 ^ 16).
Proof.
  intros Hr Hb. unfold byte in Hb.
  assert (Hi : 0 <= Z.lxor (Z.shiftr r 8) b < 256).
  { apply (lxor_lt _ _ 8); [lia| |lia]. rewrite Z.shiftr_div_pow2 by lia. lia. }
  destruct (table_at _ Hi) as [T1 T2]. unfold crc_byte. set (i := Z.lxor (Z.shiftr r 8) b) in *. set (t := znth 0 i crc_table) in *.
  assert (E : Z.lxor (Z.shiftl r 8) t mod 2 ^ 16 = Z.lxor ((r mod 256) * 2 ^ 8) t).
  { rewrite <- !Z.land_ones by lia. rewrite Z.shiftl_mul_pow2 by lia. apply Z.bits_inj'. intros k Hk. rewrite Z.land_spec, !Z.lxor_spec, Z.testbit_ones_nonneg by lia.
    change 256 with (2 ^ 8). rewrite <- !Z.shiftl_mul_pow2 by lia. rewrite !Z.shiftl_spec by lia.
    destruct (Z.ltb_spec k 16).
    - rewrite andb_true_r. f_equal. destruct (Z.ltb_spec k 8); [rewrite !Z.testbit_neg_r by lia; reflexivity|]. rewrite Z.mod_pow2_bits_low by lia. reflexivity.
    - rewrite andb_false_r. assert (Tk : Z.testbit t k = false) by (rewrite <- (Z.mod_small t (2 ^ 16)) by lia; apply Z.mod_pow2_bits_high; lia).
      rewrite Tk, xorb_false_r. symmetry. apply Z.mod_pow2_bits_high. lia. }
  rewrite E. split.
  - apply lxor_lt; [lia| |exact T2]. pose proof (Z.mod_pos_bound r 256 ltac:(lia)). lia.
  - rewrite (Z.lxor_comm ((r mod 256) * 2 ^ 8) t), <- Z.lxor_assoc, T1. subst i t. clear T1 T2 E.
    rewrite <- !Z.shiftl_mul_pow2 by lia. rewrite Z.shiftl_lxor. rewrite Z.lxor_assoc, (Z.lxor_comm (Z.shiftl b 16)), <- Z.lxor_assoc. f_equal.
    apply Z.bits_inj'. intros k Hk. rewrite Z.lxor_spec, !Z.shiftl_spec by lia. change 256 with (2 ^ 8).
    destruct (Z.ltb_spec k 8); [rewrite !Z.testbit_neg_r by lia; reflexivity|].
    destruct (Z.ltb_spec k 16).
    + rewrite (Z.testbit_neg_r _ (k - 16)) by lia. rewrite Z.mod_pow2_bits_low by lia. rewrite xorb_false_l. reflexivity.
    + rewrite Z.mod_pow2_bits_high by lia. rewrite xorb_false_r, Z.shiftr_spec by lia. f_equal. lia.
Qed.
Lemma val_be_app a b : val_be (a ++ b) = val_be a * 2 ^ len b + val_be b.
Proof.
  unfold val_be. rewrite fold_left_app. generalize (fold_left (fun a b => 2 * a + Z.b2z b) a 0). intros x. revert x.
  assert (G : forall b x, fold_left (fun a b => 2 * a + Z.b2z b) b x = x * 2 ^ len b + fold_left (fun a b => 2 * a + Z.b2z b) b 0).
  { induction b0 as [|c b0 IH]; intros x; [cbn; change (2 ^ len (@nil bool)) with 1; lia|]. cbn [fold_left]. rewrite IH, (IH (2 * 0 + Z.b2z c)).
    rewrite len_cons, Z.pow_add_r by (pose proof (len_nonneg b0); lia). lia. }
  apply G.
Qed.
Lemma val_bits8 b : byte b -> val_be (bits_be 8 b) = b.
Proof.
  intros H. assert (T : forallb (fun n => val_be (bits_be 8 (Z.of_nat n)) =? Z.of_nat n) (seq 0 256) = true) by (vm_compute; reflexivity).
  rewrite forallb_forall in T. specialize (T (Z.to_nat b)). unfold byte in H. rewrite in_seq, Z2Nat.id in T by lia. specialize (T ltac:(lia)). lia.
Qed.
Lemma checksum_snoc l b : ixcom_checksum (l ++ [b]) = crc_byte (ixcom_checksum l) b.
Proof. unfold ixcom_checksum. rewrite fold_left_app. reflexivity. Qed.
Lemma checksum_spec l : bytes l -> is_crc16 l (ixcom_checksum l).
Proof.
  induction l as [|b l IH] using rev_ind; intros H.
  - split; [cbn; lia|]. exists []. reflexivity.
  - apply Forall_app in H. destruct H as [Hl Hb]. inversion Hb; subst. destruct (IH Hl) as [R (q & Q)]. rewrite checksum_snoc.
    destruct (crc_byte_step (ixcom_checksum l) b R ltac:(assumption)) as [B1 B2]. split; [exact B1|].
    exists (q ++ qb (Z.lxor (Z.shiftr (ixcom_checksum l) 8) b)). rewrite pmul_app by (unfold CCITT; lia). rewrite qb_len, Z.lxor_assoc, B2.
    unfold bits_of_bytes. rewrite flat_map_app. cbn [flat_map]. rewrite app_nil_r, val_be_app, val_bits8 by assumption. change (len (bits_be 8 b)) with 8.
    fold (bits_of_bytes l). rewrite <- Z.lxor_assoc. rewrite <- (Z.shiftl_mul_pow2 (ixcom_checksum l)) by lia. rewrite <- Z.shiftl_lxor, Q.
    rewrite Z.mul_add_distr_r, !Z.shiftl_mul_pow2 by lia. symmetry. rewrite Z.add_nocarry_lxor; [f_equal; lia|].
    apply Z.bits_inj'. intros k Hk. rewrite Z.land_spec, Z.bits_0.
    replace (val_be (bits_of_bytes l) * 2 ^ 8 * 2 ^ 16) with (Z.shiftl (val_be (bits_of_bytes l)) 24) by (rewrite Z.shiftl_mul_pow2 by lia; lia).
    rewrite Z.shiftl_spec by lia. destruct (Z.ltb_spec k 24); [rewrite Z.testbit_neg_r by lia; reflexivity|].
    unfold byte in *. replace (Z.testbit (b * 2 ^ 16) k) with false; [apply andb_false_r|].
    symmetry. rewrite <- (Z.mod_small (b * 2 ^ 16) (2 ^ 24)) by lia. apply Z.mod_pow2_bits_high. lia.
Qed.

(** the remainder is unique *)
Lemma pmul_big q : pmul q CCITT = 0 \/ 2 ^ 16 <= pmul q CCITT.
Proof.
  induction q as [|b q IH] using rev_ind; [left; reflexivity|]. rewrite pmul_app by (unfold CCITT; lia). change (len [b]) with 1.
  rewrite Z.shiftl_mul_pow2 by lia. change (2 ^ 1) with 2.
  replace (pmul [b] CCITT) with (if b then CCITT else 0) by (destruct b; reflexivity).
  destruct IH as [-> | IH]; [destruct b; [right; vm_compute; congruence| left; reflexivity]|]. right.
  set (a := pmul q CCITT) in *. destruct b; [|rewrite Z.lxor_0_r; lia].
  assert (H : Z.log2 CCITT < Z.log2 (a * 2)).
  { change (Z.log2 CCITT) with 16. pose proof (Z.log2_le_mono (2 ^ 17) (a * 2) ltac:(lia)) as L. rewrite Z.log2_pow2 in L by lia. lia. }
  assert (L : Z.log2 (Z.lxor (a * 2) CCITT) = Z.log2 (a * 2)).
  { apply Z.log2_bits_unique.
    - rewrite Z.lxor_spec, Z.bit_log2 by lia. rewrite (Z.bits_above_log2 CCITT) by (unfold CCITT in *; lia). reflexivity.
    - intros m Hm. rewrite Z.lxor_spec, !Z.bits_above_log2 by (unfold CCITT in *; lia). reflexivity. }
  assert (N : 0 <= Z.lxor (a * 2) CCITT) by (apply Z.lxor_nonneg; unfold CCITT; lia).
  assert (NZ : Z.lxor (a * 2) CCITT <> 0). { intros E. rewrite E in L. change (Z.log2 0) with 0 in L. change (Z.log2 CCITT) with 16 in H. lia. }
  change (Z.log2 CCITT) with 16 in H. destruct (Z.le_gt_cases (2 ^ 16) (Z.lxor (a * 2) CCITT)) as [G|G]; [exact G|].
  assert (Z.log2 (Z.lxor (a * 2) CCITT) < 16) by (apply Z.log2_lt_pow2; lia). lia.
Qed.
Lemma pmul_pad n q g : 0 <= g -> pmul (repeat false n ++ q) g = pmul q g.
Proof.
  intros Hg. rewrite pmul_app by exact Hg. replace (pmul (repeat false n) g) with 0; [rewrite Z.shiftl_0_l, Z.lxor_0_l; reflexivity|].
  symmetry. induction n; [reflexivity|]. unfold pmul in *. cbn [repeat fold_left]. change (Z.lxor (2 * 0) 0) with 0. exact IHn.
Qed.
Fixpoint xors (a b : list bool) : list bool := match a, b with x :: a, y :: b => xorb x y :: xors a b | _, _ => [] end.
Lemma pmul_xors a : forall b, length a = length b -> forall g, 0 <= g -> pmul (xors a b) g = Z.lxor (pmul a g) (pmul b g).
Proof.
  intros b L g Hg. unfold pmul.
  assert (G : forall a b x y, length a = length b -> fold_left (fun a b => Z.lxor (2 * a) (if b : bool then g else 0)) (xors a b) (Z.lxor x y) =
     Z.lxor (fold_left (fun a b => Z.lxor (2 * a) (if b : bool then g else 0)) a x) (fold_left (fun a b => Z.lxor (2 * a) (if b : bool then g else 0)) b y)).
  { induction a0 as [|c a0 IH]; intros [|d b0] x y E; try discriminate; [reflexivity|]. cbn [xors fold_left]. rewrite <- IH by (cbn in E; lia). f_equal.
    rewrite !(Z.mul_comm 2). change 2 with (2 ^ 1). rewrite <- !Z.shiftl_mul_pow2 by lia. rewrite Z.shiftl_lxor. apply Z.bits_inj'. intros k Hk. rewrite !Z.lxor_spec.
    destruct c, d; cbn [xorb]; rewrite ?Z.bits_0; repeat match goal with |- context [Z.testbit ?a ?b] => destruct (Z.testbit a b) end; reflexivity. }
  rewrite <- G by exact L. reflexivity.
Qed.
Lemma crc16_unique l r r' : is_crc16 l r -> is_crc16 l r' -> r = r'.
Proof.
  intros [R (q & Q)] [R' (q' & Q')].
  assert (CG : 0 <= CCITT) by (unfold CCITT; lia).
  assert (E : exists p, pmul p CCITT = Z.lxor r r').
  { exists (xors (repeat false (length q') ++ q) (repeat false (length q) ++ q')).
    rewrite pmul_xors; [|rewrite !app_length, !repeat_length; lia| exact CG]. rewrite !pmul_pad by exact CG.
    assert (Z.lxor (Z.lxor (pmul q CCITT) r) (Z.lxor (pmul q' CCITT) r') = 0) by (rewrite Q, Q'; apply Z.lxor_nilpotent).
    apply Z.lxor_eq. rewrite <- H. apply Z.bits_inj'. intros k _. rewrite !Z.lxor_spec. repeat match goal with |- context [Z.testbit ?a k] => destruct (Z.testbit a k) end; reflexivity. }
  destruct E as (p & E). pose proof (lxor_lt r r' 16 ltac:(lia) R R') as B. destruct (pmul_big p) as [Z0|G]; [|lia].
  apply Z.lxor_eq. congruence.
Qed.
