(** Shared vocabulary of the model: byte strings as [list Z], Z-indexed list
    operations, outcome type with undefined behaviour as a distinct case.
    No code of /repo is modelled here. *)
From Coq Require Export List ZArith Lia Bool.
From Coq Require Export ZifyBool ZifyNat ZifyN.
Export ListNotations.
Open Scope Z_scope.

Ltac Zify.zify_post_hook ::= Z.div_mod_to_equations.

(** length as an integer *)
Definition len {A} (l : list A) : Z := Z.of_nat (length l).
(** first [n] / all but the first [n] elements, integer count *)
Definition take {A} (n : Z) (l : list A) : list A := firstn (Z.to_nat n) l.
Definition drop {A} (n : Z) (l : list A) : list A := skipn (Z.to_nat n) l.
(** element [i] with a default: only used where the index is known in range, or
    under an explicit bounds check that makes the other case a [Ub] outcome *)
Definition znth {A} (d : A) (i : Z) (l : list A) : A := nth (Z.to_nat i) l d.
(** [sub l i n] = l[i .. i+n) *)
Definition sub {A} (l : list A) (i n : Z) : list A := take n (drop i l).

Definition byte (b : Z) : Prop := 0 <= b < 256.
Definition byteb (b : Z) : bool := (0 <=? b) && (b <? 256).
Definition bytes (l : list Z) : Prop := Forall byte l.

(** update of one element; no effect when out of range *)
Fixpoint upd {A} (n : nat) (f : A -> A) (l : list A) : list A :=
  match l with
  | [] => []
  | x :: r => match n with O => f x :: r | S k => x :: upd k f r end
  end.
Definition zupd {A} (i : Z) (f : A -> A) (l : list A) : list A := upd (Z.to_nat i) f l.

(** return codes of librtcm (c/librtcm/include/rtcm3/messages.h: rtcm3_rc_e) and UB *)
Inductive res (A : Type) : Type :=
| Ok (a : A)
| TypeMismatch        (* RC_MESSAGE_TYPE_MISMATCH *)
| Invalid             (* RC_INVALID_MESSAGE *)
| Ub.                 (* undefined behaviour / assertion failure *)
Arguments Ok {A} a. Arguments TypeMismatch {A}. Arguments Invalid {A}. Arguments Ub {A}.

Definition bind {A B} (x : res A) (f : A -> res B) : res B :=
  match x with Ok a => f a | TypeMismatch => TypeMismatch | Invalid => Invalid | Ub => Ub end.

(** ** list lemmas *)
Lemma len_nonneg {A} (l : list A) : 0 <= len l. Proof. unfold len; lia. Qed.
Lemma len_nil {A} : len (@nil A) = 0. Proof. reflexivity. Qed.
Lemma len_cons {A} (x : A) l : len (x :: l) = 1 + len l.
Proof. unfold len. cbn [length]. lia. Qed.
Lemma len_app {A} (a b : list A) : len (a ++ b) = len a + len b.
Proof. unfold len. rewrite app_length. lia. Qed.
Lemma len_take {A} n (l : list A) : len (take n l) = Z.min (Z.max 0 n) (len l).
Proof. unfold len, take. rewrite firstn_length. lia. Qed.
Lemma len_drop {A} n (l : list A) : len (drop n l) = Z.max 0 (len l - Z.max 0 n).
Proof. unfold len, drop. rewrite skipn_length. lia. Qed.
Lemma len_map {A B} (f : A -> B) l : len (map f l) = len l.
Proof. unfold len. rewrite map_length. reflexivity. Qed.
Lemma len_rev {A} (l : list A) : len (rev l) = len l.
Proof. unfold len. rewrite rev_length. reflexivity. Qed.
Lemma len_zero_nil {A} (l : list A) : len l = 0 -> l = [].
Proof. destruct l; [reflexivity|]. rewrite len_cons. pose proof (len_nonneg l). lia. Qed.
Lemma len_repeat {A} (x : A) n : len (repeat x n) = Z.of_nat n.
Proof. unfold len. rewrite repeat_length. reflexivity. Qed.

Lemma take_drop {A} n (l : list A) : take n l ++ drop n l = l.
Proof. apply firstn_skipn. Qed.
Lemma take_all {A} n (l : list A) : len l <= n -> take n l = l.
Proof. unfold len, take. intros. apply firstn_all2. lia. Qed.
Lemma drop_all {A} n (l : list A) : len l <= n -> drop n l = [].
Proof. unfold len, drop. intros. apply skipn_all2. lia. Qed.
Lemma drop_0 {A} (l : list A) : drop 0 l = l. Proof. reflexivity. Qed.
Lemma drop_le0 {A} n (l : list A) : n <= 0 -> drop n l = l.
Proof. intros. unfold drop. replace (Z.to_nat n) with 0%nat by lia. reflexivity. Qed.
Lemma take_le0 {A} n (l : list A) : n <= 0 -> take n l = [].
Proof. intros. unfold take. replace (Z.to_nat n) with 0%nat by lia. reflexivity. Qed.
Lemma drop_cons {A} n (x : A) l : 0 < n -> drop n (x :: l) = drop (n - 1) l.
Proof. intros. unfold drop. replace (Z.to_nat n) with (S (Z.to_nat (n-1))) by lia. reflexivity. Qed.
Lemma take_cons {A} n (x : A) l : 0 < n -> take n (x :: l) = x :: take (n - 1) l.
Proof. intros. unfold take. replace (Z.to_nat n) with (S (Z.to_nat (n-1))) by lia. reflexivity. Qed.
Lemma skipn_skipn' {A} (a b : nat) (l : list A) : skipn a (skipn b l) = skipn (b + a) l.
Proof.
  revert l; induction b as [|b IH]; intros l; [reflexivity|].
  destruct l; cbn [skipn Nat.add]; [now rewrite skipn_nil|apply IH].
Qed.
Lemma drop_drop {A} a b (l : list A) : 0 <= a -> 0 <= b -> drop a (drop b l) = drop (b + a) l.
Proof. intros. unfold drop. rewrite skipn_skipn'. f_equal. lia. Qed.
Lemma take_app_l {A} n (a b : list A) : n <= len a -> take n (a ++ b) = take n a.
Proof.
  unfold take, len. intros. rewrite firstn_app.
  replace (Z.to_nat n - length a)%nat with 0%nat by lia. cbn. now rewrite app_nil_r.
Qed.
Lemma take_app_r {A} n (a b : list A) : len a <= n -> take n (a ++ b) = a ++ take (n - len a) b.
Proof.
  unfold take, len. intros. rewrite firstn_app. rewrite firstn_all2 by lia.
  f_equal. f_equal. lia.
Qed.
Lemma drop_app_l {A} n (a b : list A) : n <= len a -> drop n (a ++ b) = drop n a ++ b.
Proof.
  unfold drop, len. intros. rewrite skipn_app.
  replace (Z.to_nat n - length a)%nat with 0%nat by lia. reflexivity.
Qed.
Lemma drop_app_r {A} n (a b : list A) : len a <= n -> drop n (a ++ b) = drop (n - len a) b.
Proof.
  unfold drop, len. intros. rewrite skipn_app. rewrite skipn_all2 by lia. cbn [app].
  f_equal. lia.
Qed.
Lemma take_app_exact {A} (a b : list A) : take (len a) (a ++ b) = a.
Proof. rewrite take_app_l by lia. apply take_all. lia. Qed.
Lemma drop_app_exact {A} (a b : list A) : drop (len a) (a ++ b) = b.
Proof. rewrite drop_app_l by lia. rewrite drop_all by lia. reflexivity. Qed.
Lemma take_app_eq {A} n (a b : list A) : len a = n -> take n (a ++ b) = a.
Proof. intros <-. apply take_app_exact. Qed.
Lemma drop_app_eq {A} n (a b : list A) : len a = n -> drop n (a ++ b) = b.
Proof. intros <-. apply drop_app_exact. Qed.
Lemma take_take {A} a b (l : list A) : take a (take b l) = take (Z.min a b) l.
Proof. unfold take. rewrite firstn_firstn. f_equal. lia. Qed.
Lemma drop_take {A} a b (l : list A) : 0 <= a -> 0 <= b -> drop a (take (a + b) l) = take b (drop a l).
Proof.
  intros. unfold take, drop. rewrite firstn_skipn_comm. f_equal. f_equal. lia.
Qed.
Lemma take_add {A} a b (l : list A) : 0 <= a -> 0 <= b -> take (a + b) l = take a l ++ take b (drop a l).
Proof.
  intros. rewrite <- (take_drop a (take (a + b) l)). rewrite take_take, drop_take by lia.
  f_equal. f_equal. lia.
Qed.
Lemma znth_app_l {A} (d : A) i a b : 0 <= i < len a -> znth d i (a ++ b) = znth d i a.
Proof. unfold znth, len. intros. apply app_nth1. lia. Qed.
Lemma znth_app_r {A} (d : A) i a b : len a <= i -> znth d i (a ++ b) = znth d (i - len a) b.
Proof. unfold znth, len. intros. rewrite app_nth2 by lia. f_equal. lia. Qed.
Lemma znth_0 {A} (d : A) x l : znth d 0 (x :: l) = x. Proof. reflexivity. Qed.
Lemma znth_cons {A} (d : A) i x l : 0 < i -> znth d i (x :: l) = znth d (i - 1) l.
Proof. intros. unfold znth. replace (Z.to_nat i) with (S (Z.to_nat (i-1))) by lia. reflexivity. Qed.
Lemma nth_skipn' {A} (d : A) k n (l : list A) : nth k (skipn n l) d = nth (n + k) l d.
Proof.
  revert l; induction n as [|n IH]; intros l; [reflexivity|].
  destruct l; cbn [skipn Nat.add nth]; [destruct k; reflexivity|apply IH].
Qed.
Lemma znth_drop {A} (d : A) i n l : 0 <= i -> 0 <= n -> znth d i (drop n l) = znth d (n + i) l.
Proof. intros. unfold znth, drop. rewrite nth_skipn'. f_equal. lia. Qed.
Lemma nth_firstn' {A} (d : A) k n (l : list A) : (k < n)%nat -> nth k (firstn n l) d = nth k l d.
Proof.
  revert k l; induction n as [|n IH]; intros k l Hk; [lia|].
  destruct l; [reflexivity|]. destruct k; cbn [firstn nth]; [reflexivity|]. apply IH. lia.
Qed.
Lemma znth_take {A} (d : A) i n l : 0 <= i < n -> znth d i (take n l) = znth d i l.
Proof. intros. unfold znth, take. apply nth_firstn'. lia. Qed.
Lemma znth_default {A} (d : A) i l : len l <= i -> znth d i l = d.
Proof. unfold znth, len. intros. apply nth_overflow. lia. Qed.
Lemma len_upd {A} n f (l : list A) : length (upd n f l) = length l.
Proof. revert n; induction l as [|x l IH]; intros [|n]; cbn [upd length]; congruence. Qed.
Lemma len_zupd {A} i f (l : list A) : len (zupd i f l) = len l.
Proof. unfold len, zupd. now rewrite len_upd. Qed.
Lemma nth_upd_eq {A} (d : A) n f l : (n < length l)%nat -> nth n (upd n f l) d = f (nth n l d).
Proof. revert n; induction l as [|x l IH]; intros [|n] H; cbn [upd nth length] in *; try lia; [reflexivity|apply IH; lia]. Qed.
Lemma nth_upd_neq {A} (d : A) n m f l : n <> m -> nth m (upd n f l) d = nth m l d.
Proof. revert n m; induction l as [|x l IH]; intros [|n] [|m] H; cbn [upd nth]; try reflexivity; try lia; apply IH; lia. Qed.
Lemma znth_zupd_eq {A} (d : A) i f l : 0 <= i < len l -> znth d i (zupd i f l) = f (znth d i l).
Proof. unfold znth, zupd, len. intros. apply nth_upd_eq. lia. Qed.
Lemma znth_zupd_neq {A} (d : A) i j f l : 0 <= i -> 0 <= j -> i <> j -> znth d j (zupd i f l) = znth d j l.
Proof. unfold znth, zupd. intros. apply nth_upd_neq. lia. Qed.
Lemma Forall_take {A} (P : A -> Prop) n l : Forall P l -> Forall P (take n l).
Proof. intros H. rewrite <- (take_drop n l) in H. apply Forall_app in H. apply H. Qed.
Lemma Forall_drop {A} (P : A -> Prop) n l : Forall P l -> Forall P (drop n l).
Proof. intros H. rewrite <- (take_drop n l) in H. apply Forall_app in H. apply H. Qed.
Lemma Forall_znth {A} (P : A -> Prop) d i l : Forall P l -> 0 <= i < len l -> P (znth d i l).
Proof. intros H Hi. rewrite Forall_forall in H. apply H. unfold znth. apply nth_In. unfold len in Hi. lia. Qed.
Lemma Forall_upd {A} (P : A -> Prop) n f l : (forall x, P x -> P (f x)) -> Forall P l -> Forall P (upd n f l).
Proof.
  intros Hf H. revert n. induction H as [|x l Hx Hl IH]; intros [|n]; cbn [upd]; constructor; auto.
Qed.
Lemma drop_znth {A} (d : A) i l : 0 <= i < len l -> drop i l = znth d i l :: drop (i + 1) l.
Proof.
  intros H. unfold znth, drop, len in *. replace (Z.to_nat (i+1)) with (S (Z.to_nat i)) by lia.
  assert (Hn : (Z.to_nat i < length l)%nat) by lia. revert Hn. generalize (Z.to_nat i) as n. clear H i.
  induction l as [|x l IH]; intros [|n] H; cbn [length] in H; try lia; [reflexivity|].
  cbn [skipn nth]. rewrite IH by lia. reflexivity.
Qed.

(** ** bit arithmetic *)
Lemma lor_add a b : Z.land a b = 0 -> Z.lor a b = a + b.
Proof. intros H. rewrite Z.add_nocarry_lxor by exact H. symmetry. apply Z.lxor_lor. exact H. Qed.
Lemma testbit_small b k n : 0 <= b < 2 ^ n -> n <= k -> Z.testbit b k = false.
Proof.
  intros Hb Hk. destruct (Z.eq_dec b 0) as [->|]; [apply Z.bits_0|].
  assert (0 <= n) by (destruct (Z.lt_ge_cases n 0); [rewrite Z.pow_neg_r in Hb by lia; lia|lia]).
  apply Z.bits_above_log2; [lia|]. apply Z.log2_lt_pow2; [lia|].
  apply Z.lt_le_trans with (2^n); [lia|]. apply Z.pow_le_mono_r; lia.
Qed.
Lemma lor_shiftl_add a b n : 0 <= n -> 0 <= b < 2 ^ n -> Z.lor (Z.shiftl a n) b = a * 2 ^ n + b.
Proof.
  intros Hn Hb. rewrite lor_add.
  - rewrite Z.shiftl_mul_pow2 by lia. lia.
  - apply Z.bits_inj'. intros k Hk. rewrite Z.land_spec, Z.bits_0.
    destruct (Z.lt_ge_cases k n).
    + rewrite Z.shiftl_spec_low by lia. reflexivity.
    + rewrite (testbit_small b k n) by lia. apply andb_false_r.
Qed.
