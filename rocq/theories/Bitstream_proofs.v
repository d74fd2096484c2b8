From Verif Require Import Base Bitstring Bits_model Bits_proofs Bitstream_model.

Lemma len_bits_be n v : len (bits_be n v) = Z.of_nat n.
Proof. unfold len. now rewrite length_bits_be. Qed.
Lemma fields_bits_cons n v fs : fields_bits ((n, v) :: fs) = bits_be (Z.to_nat n) v ++ fields_bits fs.
Proof. reflexivity. Qed.
Lemma bits_byte b : byte b -> forall buff i, 0 <= i -> znth 0 i buff = b -> bits_be 8 b = bits_at buff (8 * i) 8.
Proof.
  intros Hb buff i Hi E. cbn [bits_be bits_at]. unfold bitat.
  assert (H : forall k, 0 <= k < 8 -> Z.testbit (znth 0 ((8 * i + k) / 8) buff) (7 - (8 * i + k) mod 8) = Z.testbit b (7 - k)).
  { intros k Hk. replace ((8 * i + k) / 8) with i by lia. replace ((8 * i + k) mod 8) with k by lia. now rewrite E. }
  rewrite <- !Z.add_assoc. cbn [Z.add Pos.add Pos.succ].
  replace (8 * i) with (8 * i + 0) at 1 2 by lia. rewrite !H by lia. reflexivity.
Qed.
Lemma bits_of_bytes_app a b : bits_of_bytes (a ++ b) = bits_of_bytes a ++ bits_of_bytes b.
Proof. apply flat_map_app. Qed.
Lemma len_bits_of_bytes l : len (bits_of_bytes l) = 8 * len l.
Proof.
  induction l as [|x l IH]; [reflexivity|]. unfold bits_of_bytes in *. cbn [flat_map]. rewrite len_app, len_bits_be, IH, len_cons. lia.
Qed.
Lemma bits_of_bytes_take buff n : bytes buff -> (Z.of_nat n <= len buff) ->
  bits_of_bytes (take (Z.of_nat n) buff) = bits_at buff 0 (8 * n).
Proof.
  intros Hb. induction n as [|n IH]; intros Hn.
  - reflexivity.
  - replace (Z.of_nat (S n)) with (Z.of_nat n + 1) by lia. rewrite take_add by lia. rewrite bits_of_bytes_app, IH by lia.
    replace (8 * S n)%nat with (8 * n + 8)%nat by lia. rewrite bits_at_app. f_equal.
    rewrite (drop_znth 0) by lia. rewrite take_cons by lia. rewrite take_le0 by lia.
    unfold bits_of_bytes. cbn [flat_map]. rewrite app_nil_r.
    replace (0 + Z.of_nat (8 * n)) with (8 * Z.of_nat n) by lia.
    apply bits_byte; [apply Forall_znth; [exact Hb|lia]|lia|reflexivity].
Qed.

(** What a decoder sees of an encoded message: the fields' bits, then padding. *)
Lemma encoded_bits buff fs : bytes buff -> Forall width_ok fs -> total fs <= 8 * len buff ->
  let r := put_fields buff 0 fs in
  snd r = total fs /\ len (fst r) = len buff /\ bytes (fst r) /\
  exists pad, len pad < 8 /\ bits_of_bytes (take (byte_len (snd r)) (fst r)) = fields_bits fs ++ pad.
Proof.
  intros Hb Hw Ht. cbn zeta. pose proof (total_nonneg fs Hw) as H0.
  pose proof (put_fields_spec fs buff 0 Hw ltac:(lia) ltac:(lia)) as P. cbn zeta in P.
  destruct P as (P1 & P2 & P3 & P4 & P5). set (r := put_fields buff 0 fs) in *.
  split; [lia|]. split; [exact P2|]. split; [auto|].
  rewrite P1. unfold byte_len. set (n := (0 + total fs + 7) / 8).
  exists (bits_at (fst r) (total fs) (Z.to_nat (8 * n - total fs))). split.
  - unfold len. rewrite length_bits_at. lia.
  - replace n with (Z.of_nat (Z.to_nat n)) at 1 by lia. rewrite bits_of_bytes_take; [|auto|lia].
    replace (8 * Z.to_nat n)%nat with (Z.to_nat (total fs) + Z.to_nat (8 * n - total fs))%nat by lia.
    rewrite bits_at_app. rewrite P5. f_equal. f_equal. lia.
Qed.

(** ** printer/parser laws *)
Lemma get_u_be n v r : 0 <= n -> 0 <= v < 2 ^ n -> get_u n (bits_be (Z.to_nat n) v ++ r) = DOk (v) (r).
Proof.
  intros Hn Hv. unfold get_u. pose proof (len_nonneg r).
  assert (Hl : len (bits_be (Z.to_nat n) v) = n) by (rewrite len_bits_be; lia).
  destruct (Z.ltb_spec (len (bits_be (Z.to_nat n) v ++ r)) n) as [H1|H1]; [rewrite len_app in H1; lia|].
  rewrite take_app_eq, drop_app_eq by exact Hl. rewrite val_bits_be. rewrite Z2Nat.id by lia. rewrite Z.mod_small by lia. reflexivity.
Qed.
Lemma get_u_be_mod n v r : 0 <= n -> get_u n (bits_be (Z.to_nat n) v ++ r) = DOk (v mod 2 ^ n) (r).
Proof.
  intros Hn. unfold get_u. pose proof (len_nonneg r).
  assert (Hl : len (bits_be (Z.to_nat n) v) = n) by (rewrite len_bits_be; lia).
  destruct (Z.ltb_spec (len (bits_be (Z.to_nat n) v ++ r)) n) as [H1|H1]; [rewrite len_app in H1; lia|].
  rewrite take_app_eq, drop_app_eq by exact Hl. rewrite val_bits_be. rewrite Z2Nat.id by lia. reflexivity.
Qed.
Lemma get_s_be n v r : 1 <= n -> - 2 ^ (n - 1) <= v < 2 ^ (n - 1) -> get_s n (bits_be (Z.to_nat n) v ++ r) = DOk (v) (r).
Proof.
  intros Hn Hv. unfold get_s. pose proof (len_nonneg r).
  assert (Hl : len (bits_be (Z.to_nat n) v) = n) by (rewrite len_bits_be; lia).
  destruct (Z.ltb_spec (len (bits_be (Z.to_nat n) v ++ r)) n) as [H1|H1]; [rewrite len_app in H1; lia|].
  rewrite take_app_eq, drop_app_eq by exact Hl. rewrite val_bits_be. rewrite Z2Nat.id by lia.
  rewrite to_signed_mod by lia. reflexivity.
Qed.
Lemma skip_be n v r : 0 <= n -> skip n (bits_be (Z.to_nat n) v ++ r) = DOk (tt) (r).
Proof. intros Hn. unfold skip. rewrite drop_app_eq by (rewrite len_bits_be; lia). reflexivity. Qed.

Lemma get_u_f n v fs r : 0 <= n -> 0 <= v < 2 ^ n -> get_u n (fields_bits ((n, v) :: fs) ++ r) = DOk (v) (fields_bits fs ++ r).
Proof. intros. rewrite fields_bits_cons, <- app_assoc. now apply get_u_be. Qed.
Lemma get_s_f n v fs r : 1 <= n -> - 2 ^ (n - 1) <= v < 2 ^ (n - 1) -> get_s n (fields_bits ((n, v) :: fs) ++ r) = DOk (v) (fields_bits fs ++ r).
Proof. intros. rewrite fields_bits_cons, <- app_assoc. now apply get_s_be. Qed.
Lemma skip_f n v fs r : 0 <= n -> skip n (fields_bits ((n, v) :: fs) ++ r) = DOk (tt) (fields_bits fs ++ r).
Proof. intros. rewrite fields_bits_cons, <- app_assoc. now apply skip_be. Qed.

(** bytes *)
Definition byte_fields (l : list Z) : list field := map (fun c => (8, c)) l.
Lemma get_bytes_f l : forall fs r, bytes l ->
  get_list (get_u 8) (length l) (fields_bits (byte_fields l ++ fs) ++ r) = DOk (l) (fields_bits fs ++ r).
Proof.
  induction l as [|c l IH]; intros fs r Hl; [reflexivity|]. inversion Hl as [|? ? Hc Hl']; subst.
  cbn [length get_list byte_fields map app]. unfold dbind. rewrite get_u_f by (unfold byte in Hc; lia).
  fold (byte_fields l). rewrite IH by assumption. reflexivity.
Qed.
Lemma byte_fields_ok l : Forall width_ok (byte_fields l).
Proof. unfold byte_fields. apply Forall_map. apply Forall_forall. intros x _. unfold width_ok. cbn. lia. Qed.
Lemma total_byte_fields l : total (byte_fields l) = 8 * len l.
Proof. induction l as [|c l IH]; [reflexivity|]. cbn [byte_fields map total fold_right fst]. fold (byte_fields l). fold (total (byte_fields l)). rewrite IH, len_cons. lia. Qed.

(** ** how much a decoder consumes *)
(** [consumes d n]: success means at least [n] bits were present and used *)
Definition consumes {A} (d : dec A) (n : Z) : Prop :=
  forall bs a r, d bs = DOk a r -> len bs = len r + n.

(** ** stepping a decoder over encoded fields *)
Section Steps.
Context {B : Type}.
Lemma bind_u n v fs r (f : Z -> dec B) : 0 <= n -> 0 <= v < 2 ^ n ->
  dbind (get_u n) f (fields_bits ((n, v) :: fs) ++ r) = f v (fields_bits fs ++ r).
Proof. intros. unfold dbind. now rewrite get_u_f. Qed.
Lemma bind_u_mod n v fs r (f : Z -> dec B) : 0 <= n ->
  dbind (get_u n) f (fields_bits ((n, v) :: fs) ++ r) = f (v mod 2 ^ n) (fields_bits fs ++ r).
Proof. intros. unfold dbind. rewrite fields_bits_cons, <- app_assoc. now rewrite get_u_be_mod. Qed.
Lemma bind_s n v fs r (f : Z -> dec B) : 1 <= n -> - 2 ^ (n - 1) <= v < 2 ^ (n - 1) ->
  dbind (get_s n) f (fields_bits ((n, v) :: fs) ++ r) = f v (fields_bits fs ++ r).
Proof. intros. unfold dbind. now rewrite get_s_f. Qed.
Lemma bind_skip n v fs r (f : unit -> dec B) : 0 <= n ->
  dbind (skip n) f (fields_bits ((n, v) :: fs) ++ r) = f tt (fields_bits fs ++ r).
Proof. intros. unfold dbind. now rewrite skip_f. Qed.
Lemma bind_bytes l fs r (f : list Z -> dec B) : bytes l ->
  dbind (get_list (get_u 8) (length l)) f (fields_bits (byte_fields l ++ fs) ++ r) = f l (fields_bits fs ++ r).
Proof. intros. unfold dbind. now rewrite get_bytes_f. Qed.
Lemma bind_ret {A} (x : A) (f : A -> dec B) bs : dbind (ret x) f bs = f x bs.
Proof. reflexivity. Qed.
Lemma bind_assoc {A C} (x : dec A) (f : A -> dec B) (g : B -> dec C) bs :
  dbind (dbind x f) g bs = dbind x (fun a => dbind (f a) g) bs.
Proof. unfold dbind. destruct (x bs); reflexivity. Qed.
End Steps.

(** ** truncation *)
(** [cut_safe d]: when [d] succeeds it used exactly the first [k] bits; with any longer cut of the input it
    succeeds in the same way, and with any shorter cut it reports an invalid message. *)
Definition cut_at {A} (d : dec A) (bs : list bool) (a : A) (r : list bool) (k : Z) : Prop :=
  0 <= k <= len bs /\ r = drop k bs /\
  (forall n, k <= n -> d (take n bs) = DOk a (drop k (take n bs))) /\
  (forall n, 0 <= n < k -> exists r', d (take n bs) = DInvalid r').
Definition cut_safe {A} (d : dec A) : Prop :=
  forall bs a r, d bs = DOk a r -> exists k, cut_at d bs a r k.
(** ... and it uses at least one bit *)
Definition cut_safe1 {A} (d : dec A) : Prop :=
  forall bs a r, d bs = DOk a r -> exists k, 0 < k /\ cut_at d bs a r k.

Lemma cut_safe1_weaken {A} (d : dec A) : cut_safe1 d -> cut_safe d.
Proof. intros H bs a r E. destruct (H _ _ _ E) as (k & _ & Hk). eauto. Qed.
Lemma cut_ret {A} (a : A) : cut_safe (ret a).
Proof.
  intros bs a' r E. injection E as <- <-. exists 0. split; [pose proof (len_nonneg bs); lia|]. split; [reflexivity|].
  split; [intros; reflexivity|intros; lia].
Qed.
Lemma cut_fail {A} : cut_safe (@fail A). Proof. intros bs a r E. discriminate. Qed.
Lemma cut_mismatch {A} : cut_safe (@mismatch A). Proof. intros bs a r E. discriminate. Qed.
Lemma cut1_fail {A} : cut_safe1 (@fail A). Proof. intros bs a r E. discriminate. Qed.
Lemma cut1_mismatch {A} : cut_safe1 (@mismatch A). Proof. intros bs a r E. discriminate. Qed.
Lemma cut_get (g : list bool -> Z) n : 0 <= n ->
  forall bs a r, (if len bs <? n then DInvalid bs else DOk (g (take n bs)) (drop n bs)) = DOk a r ->
  cut_at (fun bs => if len bs <? n then DInvalid bs else DOk (g (take n bs)) (drop n bs)) bs a r n.
Proof.
  intros Hn bs a r E. destruct (Z.ltb_spec (len bs) n) as [H|H]; [discriminate|]. injection E as <- <-.
  split; [lia|]. split; [reflexivity|]. split; intros m Hm; destruct (Z.ltb_spec (len (take m bs)) n) as [H1|H1];
    rewrite len_take in H1; try lia; eauto.
  rewrite take_take. replace (Z.min n m) with n by lia. reflexivity.
Qed.
Lemma cut_get_u n : 0 <= n -> cut_safe (get_u n).
Proof. intros Hn bs a r E. exists n. apply (cut_get val_be n Hn). exact E. Qed.
Lemma cut1_get_u n : 1 <= n -> cut_safe1 (get_u n).
Proof. intros Hn bs a r E. exists n. split; [lia|]. apply (cut_get val_be n ltac:(lia)). exact E. Qed.
Lemma cut1_get_s n : 1 <= n -> cut_safe1 (get_s n).
Proof. intros Hn bs a r E. exists n. split; [lia|]. apply (cut_get (fun l => to_signed n (val_be l)) n ltac:(lia)). exact E. Qed.
Lemma cut_get_s n : 0 <= n -> cut_safe (get_s n).
Proof. intros Hn bs a r E. exists n. apply (cut_get (fun l => to_signed n (val_be l)) n Hn). exact E. Qed.
Lemma cut_at_bind {A B} (d : dec A) (f : A -> dec B) bs a r b r' k1 k2 :
  cut_at d bs a r k1 -> cut_at (f a) r b r' k2 -> cut_at (dbind d f) bs b r' (k1 + k2).
Proof.
  intros (L1 & R1 & U1 & D1) (L2 & R2 & U2 & D2). subst r. rewrite len_drop in L2.
  assert (forall n, k1 <= n -> drop k1 (take n bs) = take (n - k1) (drop k1 bs)) as HT.
  { intros n Hn. replace n with (k1 + (n - k1)) at 1 by lia. apply drop_take; lia. }
  split; [lia|]. split; [subst r'; rewrite drop_drop by lia; reflexivity|]. split.
  - intros n Hn. unfold dbind. rewrite U1 by lia. rewrite HT by lia. rewrite U2 by lia. rewrite <- HT by lia.
    rewrite drop_drop by lia. reflexivity.
  - intros n Hn. unfold dbind. destruct (Z.lt_ge_cases n k1) as [H|H].
    + destruct (D1 n ltac:(lia)) as (r1 & ->). eauto.
    + rewrite U1 by lia. rewrite HT by lia. apply D2. lia.
Qed.
Lemma dbind_ok {A B} (d : dec A) (f : A -> dec B) bs b r : dbind d f bs = DOk b r ->
  exists a r1, d bs = DOk a r1 /\ f a r1 = DOk b r.
Proof. unfold dbind. destruct (d bs) as [a r1| | |]; try discriminate. eauto. Qed.
Lemma cut_bind {A B} (d : dec A) (f : A -> dec B) : cut_safe d -> (forall a, cut_safe (f a)) -> cut_safe (dbind d f).
Proof.
  intros Hd Hf bs b r E. destruct (dbind_ok _ _ _ _ _ E) as (a & r1 & E1 & E2).
  destruct (Hd _ _ _ E1) as (k1 & C1). destruct (Hf _ _ _ _ E2) as (k2 & C2). exists (k1 + k2).
  eapply cut_at_bind; eassumption.
Qed.
Lemma cut1_bind_l {A B} (d : dec A) (f : A -> dec B) : cut_safe1 d -> (forall a, cut_safe (f a)) -> cut_safe1 (dbind d f).
Proof.
  intros Hd Hf bs b r E. destruct (dbind_ok _ _ _ _ _ E) as (a & r1 & E1 & E2).
  destruct (Hd _ _ _ E1) as (k1 & P1 & C1). destruct (Hf _ _ _ _ E2) as (k2 & C2). exists (k1 + k2).
  split; [destruct C2; lia|]. eapply cut_at_bind; eassumption.
Qed.
(** an unchecked skip is harmless when a checked read follows *)
Lemma cut1_skip {B} n (f : unit -> dec B) : 0 <= n -> cut_safe1 (f tt) -> cut_safe1 (dbind (skip n) f).
Proof.
  intros Hn Hf bs b r E. destruct (dbind_ok _ _ _ _ _ E) as (a & r1 & E1 & E2). injection E1 as <- <-.
  destruct (Hf _ _ _ E2) as (k & P & L & R & U & D). rewrite len_drop in L. exists (n + k). split; [lia|].
  assert (forall m, n <= m -> drop n (take m bs) = take (m - n) (drop n bs)) as HT.
  { intros m Hm. replace m with (n + (m - n)) at 1 by lia. apply drop_take; lia. }
  split; [lia|]. split; [subst r; rewrite drop_drop by lia; reflexivity|]. unfold dbind, skip. split.
  - intros m Hm. rewrite HT by lia. rewrite U by lia. rewrite <- HT by lia. rewrite drop_drop by lia. reflexivity.
  - intros m Hm. destruct (Z.lt_ge_cases m n) as [H|H].
    + rewrite drop_all by (rewrite len_take; lia). apply (D 0). lia.
    + rewrite HT by lia. apply D. lia.
Qed.
Lemma cut_list {A} (d : dec A) n : cut_safe d -> cut_safe (get_list d n).
Proof.
  intros Hd. induction n as [|n IH]; cbn [get_list]; [apply cut_ret|].
  apply cut_bind; [exact Hd|]. intros a. apply cut_bind; [exact IH|]. intros. apply cut_ret.
Qed.
Lemma cut_if {A} (b : bool) (d1 d2 : dec A) : cut_safe d1 -> cut_safe d2 -> cut_safe (if b then d1 else d2).
Proof. destruct b; auto. Qed.
Lemma cut1_if {A} (b : bool) (d1 d2 : dec A) : cut_safe1 d1 -> cut_safe1 d2 -> cut_safe1 (if b then d1 else d2).
Proof. destruct b; auto. Qed.

(** bits of a byte prefix *)
Lemma bits_of_bytes_prefix l m : 0 <= m <= len l -> bits_of_bytes (take m l) = take (8 * m) (bits_of_bytes l).
Proof.
  intros Hm. replace (bits_of_bytes l) with (bits_of_bytes (take m l) ++ bits_of_bytes (drop m l))
    by (rewrite <- bits_of_bytes_app, take_drop; reflexivity).
  rewrite take_app_l by (rewrite len_bits_of_bytes, len_take; lia).
  symmetry. apply take_all. rewrite len_bits_of_bytes, len_take. lia.
Qed.
(** C14 in general form: a decoder that accepts a payload needs some number [k] of its bits; every byte prefix
    shorter than that is rejected as invalid, every longer one gives the same result. *)
Lemma truncation {A} (d : dec A) : cut_safe d -> forall p a, run_dec d p = Ok a ->
  exists k, 0 <= k <= 8 * len p /\ forall m, 0 <= m <= len p ->
    run_dec d (take m p) = if 8 * m <? k then Invalid else Ok a.
Proof.
  intros Hd p a E. unfold run_dec in E. destruct (d (bits_of_bytes p)) as [a' r| | |] eqn:Ed; try discriminate.
  injection E as ->. destruct (Hd _ _ _ Ed) as (k & L & R & U & D). rewrite len_bits_of_bytes in L.
  exists k. split; [exact L|]. intros m Hm. unfold run_dec. rewrite bits_of_bytes_prefix by lia.
  destruct (Z.ltb_spec (8 * m) k) as [H|H].
  - destruct (D (8 * m) ltac:(lia)) as (r' & ->). reflexivity.
  - rewrite U by lia. reflexivity.
Qed.
