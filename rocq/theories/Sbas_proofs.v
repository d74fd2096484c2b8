From Verif Require Import Base Bitstring Bits_model Bits_proofs Crc RtcmMsm_model Signals_model Subframes_model Subframes_spec Subframes_proofs Subframes_run_proofs.

Definition small (r : Z) : Prop := 0 <= r < 2 ^ 24.
Definition G : Z := 0x1864CFB.
Definition lstep (r : Z) (b : bool) : Z := Z.lxor (Z.lxor (2 * r) (Z.b2z b)) (if Z.testbit r 23 then G else 0).
Lemma lxor_b2z r b : Z.lxor (2 * r) (Z.b2z b) = 2 * r + Z.b2z b.
Proof.
  rewrite <- Z.add_nocarry_lxor; [reflexivity|]. apply Z.bits_inj. intros i. rewrite Z.land_spec, Z.bits_0.
  destruct (Z.eq_dec i 0) as [->|N]; [rewrite Z.testbit_even_0; reflexivity|].
  destruct (Z.lt_ge_cases i 0); [rewrite Z.testbit_neg_r by lia; reflexivity|].
  replace (Z.testbit (Z.b2z b) i) with false; [apply andb_false_r|]. destruct b; cbn [Z.b2z]; [|rewrite Z.bits_0; reflexivity].
  symmetry. apply Z.bits_above_log2; [lia|]. change (Z.log2 1) with 0. lia.
Qed.
Lemma top_bit r : small r -> Z.testbit r 23 = (2 ^ 23 <=? r).
Proof. intros. unfold small in *. apply (testbit_top r 24); lia. Qed.
Lemma gf2_lstep r b : small r -> gf2_step r b = lstep r b.
Proof.
  intros H. unfold gf2_step, lstep. rewrite top_bit by exact H. rewrite lxor_b2z. unfold small in H.
  change (2 ^ 24) with 16777216 in *. change (2 ^ 23) with 8388608. pose proof (b2z_range b).
  destruct (Z.leb_spec 16777216 (2 * r + Z.b2z b)), (Z.leb_spec 8388608 r); try lia; [reflexivity|]. rewrite Z.lxor_0_r. reflexivity.
Qed.
Lemma lxor_small a b n : 0 <= n -> 0 <= a < 2 ^ n -> 0 <= b < 2 ^ n -> 0 <= Z.lxor a b < 2 ^ n.
Proof.
  intros Hn Ha Hb. assert (N : 0 <= Z.lxor a b) by (apply Z.lxor_nonneg; lia). split; [exact N|].
  destruct (Z.eq_dec (Z.lxor a b) 0) as [->|NZ]; [lia|]. apply Z.log2_lt_pow2; [lia|].
  pose proof (Z.log2_lxor a b ltac:(lia) ltac:(lia)).
  assert (forall x, 0 <= x < 2 ^ n -> Z.log2 x < n \/ x = 0).
  { intros x Hx. destruct (Z.eq_dec x 0); [auto|]. left. apply Z.log2_lt_pow2; lia. }
  destruct (H0 a Ha) as [A| ->], (H0 b Hb) as [B| ->]; try lia.
  - change (Z.log2 0) with 0 in H. pose proof (Z.log2_nonneg a). lia.
  - change (Z.log2 0) with 0 in H. pose proof (Z.log2_nonneg b). lia.
  - change (Z.lxor 0 0) with 0 in NZ. lia.
Qed.
Lemma gf2_small r b : small r -> small (gf2_step r b).
Proof.
  intros H. unfold small in *. unfold gf2_step. pose proof (b2z_range b). destruct (Z.leb_spec (2 ^ 24) (2 * r + Z.b2z b)); [|lia].
  set (s := 2 * r + Z.b2z b) in *.
  (* s = 2^24 + t, generator = 2^24 + g *)
  assert (HS : s = Z.lxor (2 ^ 24) (s - 2 ^ 24)).
  { rewrite <- Z.add_nocarry_lxor; [lia|]. apply Z.bits_inj. intros i. rewrite Z.land_spec, Z.bits_0, Z.pow2_bits_eqb by lia.
    destruct (24 =? i) eqn:E; [|reflexivity]. cbn [andb]. replace i with 24 by lia.
    destruct (Z.eq_dec (s - 2 ^ 24) 0) as [->|]; [reflexivity|]. apply Z.bits_above_log2; [lia|]. apply Z.log2_lt_pow2; lia. }
  rewrite HS. change 0x1864CFB with (Z.lxor (2 ^ 24) 0x864CFB).
  replace (Z.lxor (Z.lxor (2 ^ 24) (s - 2 ^ 24)) (Z.lxor (2 ^ 24) 0x864CFB)) with (Z.lxor (s - 2 ^ 24) 0x864CFB).
  - apply lxor_small; lia.
  - rewrite (Z.lxor_comm (2 ^ 24) (s - 2 ^ 24)), Z.lxor_assoc, <- (Z.lxor_assoc (2 ^ 24)), Z.lxor_nilpotent, Z.lxor_0_l. reflexivity.
Qed.
Lemma crc_bit_step r : small r -> crc24q_bit r = gf2_step r false.
Proof.
  intros H. pose proof (gf2_small r false H) as S. unfold crc24q_bit. unfold gf2_step in *. rewrite Z.shiftl_mul_pow2 by lia.
  replace (2 * r + Z.b2z false) with (r * 2 ^ 1) in * by (cbn [Z.b2z]; lia).
  unfold small in *. pose proof (testbit_top (r * 2 ^ 1) 25 ltac:(lia) ltac:(lia)) as T. change (25 - 1) with 24 in T. rewrite T.
  destruct (2 ^ 24 <=? r * 2 ^ 1); [|reflexivity]. change 0xFFFFFF with (Z.ones 24). rewrite Z.land_ones by lia. apply Z.mod_small. exact S.
Qed.
Lemma lstep_linear r r' b b' : lstep (Z.lxor r r') (xorb b b') = Z.lxor (lstep r b) (lstep r' b').
Proof.
  unfold lstep. replace (2 * Z.lxor r r') with (Z.lxor (2 * r) (2 * r')).
  2: { rewrite !(Z.mul_comm 2). change 2 with (2 ^ 1). rewrite <- !Z.shiftl_mul_pow2 by lia. symmetry. apply Z.shiftl_lxor. }
  rewrite Z.lxor_spec. replace (Z.b2z (xorb b b')) with (Z.lxor (Z.b2z b) (Z.b2z b')) by (destruct b, b'; reflexivity).
  replace (if xorb (Z.testbit r 23) (Z.testbit r' 23) then G else 0) with (Z.lxor (if Z.testbit r 23 then G else 0) (if Z.testbit r' 23 then G else 0)).
  2: { destruct (Z.testbit r 23), (Z.testbit r' 23); reflexivity. }
  generalize (2 * r) (2 * r') (Z.b2z b) (Z.b2z b') (if Z.testbit r 23 then G else 0) (if Z.testbit r' 23 then G else 0). clear. intros.
  apply Z.bits_inj. intros i. rewrite !Z.lxor_spec. destruct (Z.testbit z i), (Z.testbit z0 i), (Z.testbit z1 i), (Z.testbit z2 i), (Z.testbit z3 i), (Z.testbit z4 i); reflexivity.
Qed.
Lemma gf2_linear r r' b b' : small r -> small r' -> gf2_step (Z.lxor r r') (xorb b b') = Z.lxor (gf2_step r b) (gf2_step r' b').
Proof. intros. rewrite !gf2_lstep by (try assumption; apply lxor_small; lia || assumption). apply lstep_linear. Qed.
Definition zn (n : nat) (r : Z) : Z := Nat.iter n (fun r => gf2_step r false) r.
Lemma iter_small n r : small r -> small (Nat.iter n (fun r => gf2_step r false) r).
Proof. intros H. induction n; [exact H|]. cbn. apply gf2_small. exact IHn. Qed.
Lemma iter_linear n r r' : small r -> small r' ->
  Nat.iter n (fun r => gf2_step r false) (Z.lxor r r') = Z.lxor (Nat.iter n (fun r => gf2_step r false) r) (Nat.iter n (fun r => gf2_step r false) r').
Proof.
  intros H H'. induction n as [|n IH]; [reflexivity|]. cbn [Nat.iter nat_rect]. cbn. unfold Nat.iter in IH. rewrite IH.
  apply (gf2_linear _ _ false false); apply iter_small; assumption.
Qed.
Lemma iter_swap n r : Nat.iter n (fun r => gf2_step r false) (gf2_step r false) = gf2_step (Nat.iter n (fun r => gf2_step r false) r) false.
Proof. induction n as [|n IH]; [reflexivity|]. cbn. unfold Nat.iter in IH. rewrite IH. reflexivity. Qed.
Lemma rem_small l : forall r, small r -> small (fold_left gf2_step l r).
Proof. induction l as [|b l IH]; intros r H; [exact H|]. cbn [fold_left]. apply IH, gf2_small, H. Qed.
Lemma small0 : small 0. Proof. unfold small. lia. Qed.
Lemma small1 : small 1. Proof. unfold small. lia. Qed.
Lemma crc_is_zn n d : zn n 1 = gf2_step (2 ^ 23) false -> crc24q_bits d = zn n (gf2_rem d).
Proof.
  intros H1. assert (H0 : zn n 0 = 0). { unfold zn. clear. induction n; [reflexivity|]. cbn. unfold Nat.iter in IHn. rewrite IHn. reflexivity. }
  unfold crc24q_bits, gf2_rem. induction d as [|b d IH] using rev_ind; [symmetry; exact H0|]. rewrite !fold_left_app. cbn [fold_left]. rewrite IH. clear IH.
  pose proof (rem_small d 0 small0) as S. set (r := fold_left gf2_step d 0) in *. clearbody r.
  assert (SZ : small (zn n r)) by (apply iter_small; exact S).
  unfold crc24q_feed. rewrite crc_bit_step by (apply lxor_small; [lia| exact SZ|]; destruct b; lia).
  assert (E : gf2_step r b = Z.lxor (gf2_step r false) (Z.b2z b)).
  { pose proof (gf2_linear r 0 false b S small0) as L. rewrite Z.lxor_0_r in L. replace (xorb false b) with b in L by (destruct b; reflexivity). rewrite L. f_equal. destruct b; reflexivity. }
  rewrite E. assert (LL : zn n (Z.lxor (gf2_step r false) (Z.b2z b)) = Z.lxor (gf2_step (zn n r) false) (zn n (Z.b2z b))).
  { unfold zn. rewrite iter_linear; [|apply gf2_small, S| destruct b; [exact small1| exact small0]]. rewrite iter_swap. reflexivity. }
  rewrite LL. pose proof (gf2_linear (zn n r) (if b then 2 ^ 23 else 0) false false SZ ltac:(destruct b; unfold small; lia)) as L2.
  cbn [xorb] in L2. rewrite L2. f_equal. destruct b; cbn [Z.b2z]; [symmetry; exact H1| symmetry; exact H0].
Qed.
Lemma z24_one : zn 24 1 = gf2_step (2 ^ 23) false. Proof. vm_compute. reflexivity. Qed.
Lemma fold_low t : forall r, 0 <= r < 2 ^ (24 - len t) -> len t <= 24 -> fold_left gf2_step t r = r * 2 ^ len t + val_be t.
Proof.
  induction t as [|b t IH]; intros r H L; [change (val_be []) with 0; change (len (@nil bool)) with 0; cbn [fold_left]; lia|].
  rewrite len_cons in *. cbn [fold_left]. pose proof (len_nonneg t). pose proof (b2z_range b).
  assert (P2 : 2 ^ (24 - len t) = 2 * 2 ^ (24 - (1 + len t))) by (rewrite <- Z.pow_succ_r by lia; f_equal; lia).
  assert (P3 : 2 ^ (1 + len t) = 2 * 2 ^ len t) by (rewrite Z.pow_add_r by lia; reflexivity).
  assert (P4 : 2 ^ (24 - len t) <= 2 ^ 24) by (apply Z.pow_le_mono_r; lia).
  assert (E : gf2_step r b = 2 * r + Z.b2z b). { unfold gf2_step. destruct (Z.leb_spec (2 ^ 24) (2 * r + Z.b2z b)); [lia| reflexivity]. }
  rewrite E, IH by lia. rewrite val_be_cons. rewrite P3. lia.
Qed.
Lemma fold_split t : forall r s, small r -> small s -> fold_left gf2_step t (Z.lxor r s) = Z.lxor (fold_left (fun r _ => gf2_step r false) t r) (fold_left gf2_step t s).
Proof.
  induction t as [|b t IH]; intros r s Hr Hs; [reflexivity|]. cbn [fold_left]. rewrite <- IH by (apply gf2_small; assumption). f_equal.
  rewrite <- gf2_linear by assumption. destruct b; reflexivity.
Qed.
Lemma fold_iter {A} (t : list A) r : fold_left (fun r _ => gf2_step r false) t r = Nat.iter (length t) (fun r => gf2_step r false) r.
Proof. revert r. induction t as [|b t IH]; intros r; [reflexivity|]. cbn [fold_left length]. rewrite IH. rewrite iter_swap. reflexivity. Qed.
Lemma crc_check_n n d t : n = 24%nat -> zn n 1 = gf2_step (2 ^ 23) false -> length t = n -> (crc24q_bits d = val_be t <-> gf2_rem (d ++ t) = 0).
Proof.
  intros Hn H1 L. rewrite (crc_is_zn n d H1). unfold gf2_rem. rewrite fold_left_app.
  pose proof (rem_small d 0 small0) as S. set (r := fold_left gf2_step d 0) in *. clearbody r.
  rewrite <- (Z.lxor_0_r r) at 2. rewrite fold_split by (try assumption; apply small0). rewrite fold_iter, L. fold (zn n r).
  assert (LZ : len t = 24) by (unfold len; lia).
  rewrite fold_low by (rewrite LZ; lia). rewrite Z.mul_0_l, Z.add_0_l. split.
  - intros ->. apply Z.lxor_nilpotent.
  - intros H. apply Z.lxor_eq in H. exact H.
Qed.
Lemma crc_check d t : length t = 24%nat -> (crc24q_bits d = val_be t <-> gf2_rem (d ++ t) = 0).
Proof. exact (crc_check_n 24 d t eq_refl z24_one). Qed.

Lemma bits_at_sub p n : forall pos, 0 <= pos -> pos + Z.of_nat n <= 8 * len p -> bits_at p pos n = sub (bits_of_bytes p) pos (Z.of_nat n).
Proof.
  induction n as [|n IH]; intros pos H1 H2; [reflexivity|]. cbn [bits_at]. rewrite IH by lia. rewrite bitat_bits by lia.
  unfold sub, take, drop, znth. replace (Z.to_nat (Z.of_nat (S n))) with (S n) by lia. rewrite Nat2Z.id.
  replace (Z.to_nat (pos + 1)) with (S (Z.to_nat pos)) by lia.
  assert (L : (Z.to_nat pos < length (bits_of_bytes p))%nat) by (pose proof (len_bits_of_bytes p); unfold len in *; lia).
  revert L. generalize (Z.to_nat pos) (bits_of_bytes p). clear. intros k l. revert l. induction k as [|k IHk]; intros [|b l] Hl; cbn [length] in Hl; try lia; [reflexivity|].
  cbn [nth skipn]. rewrite IHk by lia. reflexivity.
Qed.
Lemma buf_bits_sub p pos n : 0 <= pos -> 0 <= n -> pos + n <= 8 * len p -> buf_bits p pos n = sub (bits_of_bytes p) pos n.
Proof.
  intros. rewrite <- (Z2Nat.id n) at 2 by lia. rewrite <- bits_at_sub by lia. unfold buf_bits. 
  assert (E : forall m k q, 0 <= q -> map (fun i => negb (getbitu p (q + Z.of_nat i) 1 =? 0)) (seq k m) = bits_at p (q + Z.of_nat k) m).
  { clear. induction m as [|m IH]; intros k q Hq; [reflexivity|]. cbn [seq map bits_at]. rewrite IH by lia. f_equal; [|f_equal; lia].
    rewrite bitat_val1 by lia. destruct (bitat p (q + Z.of_nat k)); reflexivity. }
  rewrite E by lia. f_equal. lia.
Qed.
Lemma flat_be4_bits l : bits_of_bytes (flat_map be4 l) = word_bits l.
Proof. induction l as [|w l IH]; [reflexivity|]. cbn [flat_map]. rewrite bits_of_bytes_app, IH, be4_bits. reflexivity. Qed.
Lemma flat_be4_bytes l : bytes (flat_map be4 l).
Proof. induction l as [|w l IH]; [constructor|]. cbn [flat_map]. unfold bytes in *. rewrite Forall_app. split; [apply bytes_be4| exact IH]. Qed.
Lemma flat_be4_len l : len (flat_map be4 l) = 4 * len l.
Proof. induction l as [|w l IH]; [reflexivity|]. cbn [flat_map]. rewrite len_app, len_cons, IH. change (len (be4 w)) with 4. lia. Qed.
Lemma sub_val p pos n : bytes p -> 0 <= pos -> 0 <= n <= 32 -> pos + n <= 8 * len p -> getbitu p pos n = val_be (sub (bits_of_bytes p) pos n).
Proof. intros. rewrite getbitu_spec by lia. rewrite bits_at_sub by lia. rewrite Z2Nat.id by lia. reflexivity. Qed.
Lemma bits8_val b : byte b -> val_be (bits_be 8 b) = b.
Proof. intros H. rewrite val_bits_be. apply Z.mod_small. exact H. Qed.

Theorem sbas_step_spec prn tow ws o : sbas_step prn tow ws = Some o <->
  (len ws = 8 \/ len ws = 9) /\ sbas_intact ws /\
  o = SbasRaw prn tow (val_be (sub (word_bits (take 8 ws)) 8 6)) (sub (word_bits (take 8 ws)) 14 212).
Proof.
  unfold sbas_step, sbas_intact.
  destruct (negb (len ws =? 8) && negb (len ws =? 9)) eqn:EL; [split; [discriminate| lia]|].
  assert (LW : len (take 8 ws) = 8) by (rewrite len_take; lia).
  set (bf := flat_map be4 (take 8 ws)).
  assert (LB : len bf = 32) by (unfold bf; rewrite flat_be4_len; lia).
  assert (BB : bytes bf) by apply flat_be4_bytes.
  assert (WB : word_bits (take 8 ws) = bits_of_bytes bf) by (symmetry; apply flat_be4_bits).
  rewrite WB. clearbody bf. clear WB LW.
  assert (LBB : len (bits_of_bytes bf) = 256) by (rewrite len_bits_of_bytes; lia).
  cbv zeta.
  (* preamble and type *)
  assert (B0 : val_be (take 8 (take 250 (bits_of_bytes bf))) = znth 0 0 bf).
  { destruct bf as [|b bf]; [discriminate|]. inversion BB; subst. rewrite znth_0. rewrite <- (bits8_val b) at 2 by assumption. reflexivity. }
  assert (B1 : fld (znth 0 1 bf) 2 0x3F = val_be (sub (bits_of_bytes bf) 8 6)).
  { destruct bf as [|b0 [|b bf]]; try discriminate. inversion BB as [|? ? ? BB']; subst. inversion BB'; subst. change (znth 0 1 (b0 :: b :: bf)) with b.
    unfold bits_of_bytes. cbn [flat_map]. generalize (flat_map (bits_be 8) bf). intros r.
    assert (Q : sub (bits_be 8 b0 ++ bits_be 8 b ++ r) 8 6 = bits_be 6 (Z.shiftr b 2)).
    { cbn [bits_be app]. rewrite !Z.shiftr_spec by lia. reflexivity. }
    rewrite Q, val_bits_be. unfold fld. change 0x3F with (Z.ones 6). apply Z.land_ones. lia. }
  rewrite !buf_bits_sub by lia. rewrite (sub_val bf 226 24) by (try assumption; lia). rewrite B0, B1.
  assert (CR : crc24q_bits (sub (bits_of_bytes bf) 0 226) = val_be (sub (bits_of_bytes bf) 226 24) <-> gf2_rem (take 250 (bits_of_bytes bf)) = 0).
  { rewrite crc_check.
    - replace (sub (bits_of_bytes bf) 0 226 ++ sub (bits_of_bytes bf) 226 24) with (take 250 (bits_of_bytes bf)); [reflexivity|].
      unfold sub. rewrite drop_0. generalize (bits_of_bytes bf). clear. intros l. unfold take, drop.
      replace (Z.to_nat 250) with (Z.to_nat 226 + Z.to_nat 24)%nat by lia. generalize (Z.to_nat 226) (Z.to_nat 24). clear. intros n m. revert l. induction n; intros l; [reflexivity|].
      destruct l; [cbn; rewrite firstn_nil; reflexivity|]. cbn. f_equal. apply IHn.
    - assert (Q : len (sub (bits_of_bytes bf) 226 24) = 24) by (unfold sub; rewrite len_take, len_drop; lia). unfold len in Q. lia. }
  destruct (negb (0x53 =? znth 0 0 bf) && negb (0x9a =? znth 0 0 bf) && negb (0xc6 =? znth 0 0 bf)) eqn:EP; [split; [discriminate| lia]|].
  destruct (val_be (sub (bits_of_bytes bf) 226 24) =? crc24q_bits (sub (bits_of_bytes bf) 0 226)) eqn:EC; cbn [negb].
  - apply Z.eqb_eq in EC. symmetry in EC. apply CR in EC. split; [intros [= <-]; repeat split; try assumption; lia| intros (_ & _ & ->); reflexivity].
  - split; [discriminate|]. intros (_ & [_ H] & _). apply CR in H. lia.
Qed.
