(** Codecs: a decoder that inverts an encoder on the values of a set and accepts nothing else. *)
From Verif Require Import Base Bits_model RtcmLegacy_proofs Bytestream_model.

Definition codec {A} (d : bdec A) (e : A -> list Z) (P : A -> Prop) : Prop :=
  (forall x r, P x -> d (e x ++ r) = Ok (x, r)) /\
  (forall l x r, bytes l -> d l = Ok (x, r) -> l = e x ++ r /\ P x) /\
  (forall l, bytes l -> d l <> Ub).

Lemma pow256_S n : 256 ^ Z.of_nat (S n) = 256 * 256 ^ Z.of_nat n.
Proof. rewrite Nat2Z.inj_succ, Z.pow_succ_r by lia. reflexivity. Qed.
Lemma pow256_pos n : 0 < 256 ^ Z.of_nat n. Proof. apply Z.pow_pos_nonneg; lia. Qed.
Lemma len_le n v : len (le n v) = Z.of_nat n.
Proof. revert v; induction n as [|n IH]; intros v; cbn [le]; [reflexivity|]. rewrite len_cons, IH. lia. Qed.
Lemma le_bytes n v : bytes (le n v).
Proof. revert v; induction n as [|n IH]; intros v; cbn [le]; constructor; [unfold byte; apply Z.mod_pos_bound; lia|apply IH]. Qed.
Lemma le_val_le n v : le_val (le n v) = v mod 256 ^ Z.of_nat n.
Proof.
  revert v; induction n as [|n IH]; intros v; cbn [le le_val]; [now rewrite Z.mod_1_r|].
  rewrite IH, pow256_S. pose proof (pow256_pos n). now rewrite Z.rem_mul_r by lia.
Qed.
Lemma le_val_range l : bytes l -> 0 <= le_val l < 256 ^ len l.
Proof.
  induction 1 as [|b l Hb Hl IH]; cbn [le_val]; [cbn; lia|]. unfold len in *. cbn [length]. rewrite pow256_S. unfold byte in Hb. lia.
Qed.
Lemma le_le_val l : bytes l -> forall k, k = length l -> le k (le_val l) = l.
Proof.
  induction 1 as [|b l Hb Hl IH]; intros k ->; [reflexivity|]. cbn [length le le_val]. unfold byte in Hb. f_equal.
  - rewrite Z.mul_comm, Z_mod_plus_full. apply Z.mod_small. lia.
  - rewrite Z.mul_comm, Z.div_add by lia. rewrite Z.div_small by lia. cbn [Z.add]. now apply IH.
Qed.
Lemma le_mod n v : le n (v mod 256 ^ Z.of_nat n) = le n v.
Proof. rewrite <- le_val_le. apply le_le_val; [apply le_bytes|]. pose proof (len_le n v). unfold len in *. lia. Qed.
Lemma getu_codec n : codec (getu n) (le n) (ufits n).
Proof.
  unfold getu, ufits. repeat split.
  - intros v r H. rewrite len_app, len_le. pose proof (len_nonneg r). destruct (Z.ltb_spec (Z.of_nat n + len r) (Z.of_nat n)); [lia|].
    rewrite take_app_eq, drop_app_eq by apply len_le. rewrite le_val_le, Z.mod_small by exact H. reflexivity.
  - destruct (Z.ltb_spec (len l) (Z.of_nat n)); [discriminate|]. assert (x = le_val (take (Z.of_nat n) l)) as -> by congruence.
    assert (r = drop (Z.of_nat n) l) as -> by congruence. rewrite le_le_val; [now rewrite take_drop| |].
    + unfold bytes in *. rewrite <- (take_drop (Z.of_nat n) l) in H. now apply Forall_app in H.
    + pose proof (len_take (Z.of_nat n) l). unfold len in *. lia.
  - destruct (Z.ltb_spec (len l) (Z.of_nat n)); [discriminate|]. assert (x = le_val (take (Z.of_nat n) l)) as -> by congruence.
    assert (B : bytes (take (Z.of_nat n) l)) by (unfold bytes in *; rewrite <- (take_drop (Z.of_nat n) l) in H; now apply Forall_app in H).
    pose proof (le_val_range _ B) as R. lia.
  - destruct (Z.ltb_spec (len l) (Z.of_nat n)); [discriminate|]. assert (x = le_val (take (Z.of_nat n) l)) as -> by congruence.
    assert (B : bytes (take (Z.of_nat n) l)) by (unfold bytes in *; rewrite <- (take_drop (Z.of_nat n) l) in H; now apply Forall_app in H).
    pose proof (le_val_range _ B) as R. rewrite len_take in R. replace (Z.min (Z.max 0 (Z.of_nat n)) (len l)) with (Z.of_nat n) in R by lia. lia.
  - intros l _. destruct (_ <? _); discriminate.
Qed.
Lemma to_signed_cases n x : (0 < n)%nat -> 0 <= x < 256 ^ Z.of_nat n ->
  sfits n (to_signed (8 * Z.of_nat n) x) /\ (to_signed (8 * Z.of_nat n) x) mod 256 ^ Z.of_nat n = x.
Proof.
  intros Hn Hx. unfold to_signed, sfits. assert (E : 2 ^ (8 * Z.of_nat n) = 256 ^ Z.of_nat n) by (rewrite Z.pow_mul_r by lia; reflexivity).
  assert (E2 : 2 ^ (8 * Z.of_nat n - 1) = 256 ^ Z.of_nat n / 2).
  { rewrite <- E. replace (8 * Z.of_nat n) with (Z.succ (8 * Z.of_nat n - 1)) at 2 by lia. rewrite Z.pow_succ_r by lia.
    rewrite (Z.mul_comm 2), Z.div_mul by lia. reflexivity. }
  assert (E3 : 256 ^ Z.of_nat n = 2 * (256 ^ Z.of_nat n / 2)).
  { rewrite <- E2, <- E. replace (8 * Z.of_nat n) with (Z.succ (8 * Z.of_nat n - 1)) at 1 by lia. apply Z.pow_succ_r. lia. }
  rewrite E, E2. rewrite Z.mod_small by exact Hx. destruct (Z.ltb_spec x (256 ^ Z.of_nat n / 2)).
  - split; [lia|]. apply Z.mod_small. lia.
  - split; [lia|]. rewrite <- (Z_mod_plus_full (x - 256 ^ Z.of_nat n) 1). rewrite Z.mod_small; lia.
Qed.
Lemma to_signed_inv n v : (0 < n)%nat -> sfits n v -> to_signed (8 * Z.of_nat n) (v mod 256 ^ Z.of_nat n) = v.
Proof.
  intros Hn Hv. pose proof (pow256_pos n). pose proof (Z.mod_pos_bound v (256 ^ Z.of_nat n) ltac:(lia)) as Hm.
  destruct (to_signed_cases n _ Hn Hm) as [H1 H2]. unfold sfits in *.
  set (t := to_signed _ _) in *. set (M := 256 ^ Z.of_nat n) in *. clearbody t M.
  pose proof (Z.div_mod t M ltac:(lia)). pose proof (Z.div_mod v M ltac:(lia)).
  assert (t / M = v / M) by nia. nia.
Qed.
Lemma gets_codec n : (0 < n)%nat -> codec (gets n) (le n) (sfits n).
Proof.
  intros Hn. destruct (getu_codec n) as (U1 & U2 & U3).
  assert (G : forall l, gets n l = match getu n l with Ok (v, r) => Ok (to_signed (8 * Z.of_nat n) v, r) | TypeMismatch => TypeMismatch | Invalid => Invalid | Ub => Ub end).
  { intros l. unfold gets, getu. now destruct (_ <? _). }
  split; [|split].
  - intros v r H. rewrite G. rewrite <- le_mod. rewrite U1 by (unfold ufits; apply Z.mod_pos_bound, pow256_pos). now rewrite to_signed_inv.
  - intros l x r Hl. rewrite G. destruct (getu n l) as [[v r']| | |] eqn:E; try discriminate. intros H.
    assert (r' = r) as -> by congruence. assert (x = to_signed (8 * Z.of_nat n) v) as -> by congruence.
    destruct (U2 _ _ _ Hl E) as [-> Hv]. destruct (to_signed_cases n v Hn Hv) as [H1 H2]. split; [|exact H1].
    now rewrite <- (le_mod n (to_signed _ _)), H2.
  - intros l Hl. rewrite G. specialize (U3 l Hl). destruct (getu n l) as [[? ?]| | |]; discriminate || congruence.
Qed.

Lemma bbind_ok {A B} (d : bdec A) (f : A -> bdec B) a l r : d l = Ok (a, r) -> bbind d f l = f a r.
Proof. intros H. unfold bbind. now rewrite H. Qed.
Lemma bbind_inv {A B} (d : bdec A) (f : A -> bdec B) l b r :
  bbind d f l = Ok (b, r) -> exists a l1, d l = Ok (a, l1) /\ f a l1 = Ok (b, r).
Proof. unfold bbind. destruct (d l) as [[a l1]| | |]; try discriminate. intros H. now exists a, l1. Qed.
Lemma bbind_no_ub {A B} (d : bdec A) (f : A -> bdec B) l :
  d l <> Ub -> (forall a r, d l = Ok (a, r) -> f a r <> Ub) -> bbind d f l <> Ub.
Proof. unfold bbind. destruct (d l) as [[a r]| | |]; intros H1 H2; try discriminate; [now apply H2|congruence]. Qed.
Lemma check_inv {A} b (d : bdec A) l x : check_then b d l = Ok x -> b = true /\ d l = Ok x.
Proof. unfold check_then. destruct b; [tauto|discriminate]. Qed.

(** loops *)
Lemma get_array_get_n {A} (d : bdec A) cap n : forall i l, i + Z.of_nat n <= cap -> get_array cap i n d l = get_n n d l.
Proof.
  induction n as [|n IH]; intros i l H; [reflexivity|]. cbn [get_array get_n]. destruct (Z.leb_spec cap i); [lia|].
  unfold bbind. destruct (d l) as [[a r]| | |]; try reflexivity. rewrite IH by lia. reflexivity.
Qed.
Lemma get_n_codec {A} (d : bdec A) e P n : codec d e P -> codec (get_n n d) (flat_map e) (fun xs => Forall P xs /\ length xs = n).
Proof.
  intros (C1 & C2 & C3). induction n as [|n (I1 & I2 & I3)].
  - split; [|split].
    + intros x r [_ H]. destruct x; [reflexivity|discriminate].
    + intros l x r _ H. cbn in H. unfold bret in H. assert (x = []) as -> by congruence. assert (l = r) as -> by congruence. cbn. repeat split. constructor.
    + discriminate.
  - split; [|split].
    + intros x r [H Hn]. destruct x as [|x xs]; [discriminate|]. inversion H; subst. cbn [flat_map get_n]. rewrite <- app_assoc.
      rewrite (bbind_ok _ _ _ _ _ (C1 x _ ltac:(assumption))). rewrite (bbind_ok _ _ xs _ r); [reflexivity|]. apply I1. split; [assumption|]. now injection Hn.
    + intros l x r Hl H. cbn [get_n] in H. apply bbind_inv in H. destruct H as (a & l1 & E1 & H). apply bbind_inv in H.
      destruct H as (xs & l2 & E2 & H). unfold bret in H. assert (x = a :: xs) as -> by congruence. assert (l2 = r) as -> by congruence.
      destruct (C2 _ _ _ Hl E1) as [-> Ha].
      assert (Hl1 : bytes l1) by (unfold bytes in *; apply Forall_app in Hl; tauto).
      destruct (I2 _ _ _ Hl1 E2) as [-> [Hf Hn]]. cbn [flat_map]. rewrite <- app_assoc. repeat split; [now constructor|cbn; lia].
    + intros l Hl. cbn [get_n]. apply bbind_no_ub; [now apply C3|]. intros a r E. destruct (C2 _ _ _ Hl E) as [-> _].
      assert (Hr : bytes r) by (unfold bytes in *; apply Forall_app in Hl; tauto).
      apply bbind_no_ub; [now apply I3|]. discriminate.
Qed.
Lemma len_length {A} (l : list A) n : len l = Z.of_nat n -> length l = n.
Proof. unfold len. lia. Qed.

(** consequences of being a codec *)
Lemma codec_round_trip {A} (d : bdec A) e P : codec d e P -> forall x r, P x -> d (e x ++ r) = Ok (x, r).
Proof. intros (H & _). exact H. Qed.
Lemma codec_exact {A} (d : bdec A) e P : codec d e P -> forall l x r, bytes l -> d l = Ok (x, r) -> l = e x ++ r /\ P x.
Proof. intros (_ & H & _). exact H. Qed.
(** a proper prefix of an accepted message is not accepted *)
Lemma codec_truncated {A} (d : bdec A) e P : codec d e P -> forall x, P x -> bytes (e x) ->
  forall k, 0 <= k < len (e x) -> forall y r, d (take k (e x)) <> Ok (y, r).
Proof.
  intros (C1 & C2 & _) x Hx Hb k Hk y r E.
  assert (B : bytes (take k (e x))) by (unfold bytes in *; rewrite <- (take_drop k (e x)) in Hb; now apply Forall_app in Hb).
  destruct (C2 _ _ _ B E) as [E1 Hy].
  pose proof (C1 y (r ++ drop k (e x)) Hy) as F. rewrite app_assoc, <- E1, take_drop in F.
  pose proof (C1 x [] Hx) as F2. rewrite app_nil_r in F2. rewrite F2 in F. assert (Hnil : r ++ drop k (e x) = []) by congruence.
  apply app_eq_nil in Hnil. destruct Hnil as [_ Hnil]. apply (f_equal len) in Hnil. rewrite len_drop in Hnil. change (len (@nil Z)) with 0 in Hnil. lia.
Qed.

(** tactics for records of fields *)
Lemma bytes_app_r a b : bytes (a ++ b) -> bytes b.
Proof. unfold bytes. intros H. apply Forall_app in H. tauto. Qed.
Lemma u_fwd {B} n (f : Z -> bdec B) v r : ufits n v -> bbind (getu n) f (le n v ++ r) = f v r.
Proof. intros H. apply bbind_ok. now apply getu_codec. Qed.
Lemma s_fwd {B} n (f : Z -> bdec B) v r : (0 < n)%nat -> sfits n v -> bbind (gets n) f (le n v ++ r) = f v r.
Proof. intros Hn H. apply bbind_ok. now apply gets_codec. Qed.
Lemma n_fwd {A B} (d : bdec A) e P n k (f : list A -> bdec B) xs r : codec d e P -> Forall P xs -> len xs = Z.of_nat n -> k = Z.of_nat n ->
  bbind (get_n n d) f (flat_map e (take k xs) ++ r) = f xs r.
Proof. intros C H Hl ->. rewrite take_all by lia. apply bbind_ok. apply (get_n_codec d e P n C). split; [exact H|]. now apply len_length. Qed.
Lemma u_inv {B} n (f : Z -> bdec B) l b r : bytes l -> bbind (getu n) f l = Ok (b, r) ->
  exists v l1, l = le n v ++ l1 /\ ufits n v /\ bytes l1 /\ f v l1 = Ok (b, r).
Proof.
  intros Hl H. apply bbind_inv in H. destruct H as (v & l1 & E & H). apply (codec_exact _ _ _ (getu_codec n) _ _ _ Hl) in E.
  destruct E as [-> Hv]. exists v, l1. repeat split; try assumption; try apply Hv. now apply bytes_app_r in Hl.
Qed.
Lemma s_inv {B} n (f : Z -> bdec B) l b r : (0 < n)%nat -> bytes l -> bbind (gets n) f l = Ok (b, r) ->
  exists v l1, l = le n v ++ l1 /\ sfits n v /\ bytes l1 /\ f v l1 = Ok (b, r).
Proof.
  intros Hn Hl H. apply bbind_inv in H. destruct H as (v & l1 & E & H). apply (codec_exact _ _ _ (gets_codec n Hn) _ _ _ Hl) in E.
  destruct E as [-> Hv]. exists v, l1. repeat split; try assumption; try apply Hv. now apply bytes_app_r in Hl.
Qed.
Lemma n_inv {A B} (d : bdec A) e P n (f : list A -> bdec B) l b r : codec d e P -> bytes l -> bbind (get_n n d) f l = Ok (b, r) ->
  exists v l1, l = flat_map e v ++ l1 /\ (Forall P v /\ len v = Z.of_nat n) /\ bytes l1 /\ f v l1 = Ok (b, r).
Proof.
  intros C Hl H. apply bbind_inv in H. destruct H as (v & l1 & E & H). apply (codec_exact _ _ _ (get_n_codec d e P n C) _ _ _ Hl) in E.
  destruct E as [-> [Hv Hn]]. exists v, l1. repeat split; try assumption; [unfold len; lia|]. now apply bytes_app_r in Hl.
Qed.
Lemma u_nub {B} n (f : Z -> bdec B) l : bytes l -> (forall v l1, ufits n v -> bytes l1 -> f v l1 <> Ub) -> bbind (getu n) f l <> Ub.
Proof.
  intros Hl H. apply bbind_no_ub; [now apply getu_codec|]. intros a r E. apply (codec_exact _ _ _ (getu_codec n) _ _ _ Hl) in E.
  destruct E as [-> Hv]. apply H; [exact Hv|]. now apply bytes_app_r in Hl.
Qed.
Lemma s_nub {B} n (f : Z -> bdec B) l : (0 < n)%nat -> bytes l -> (forall v l1, sfits n v -> bytes l1 -> f v l1 <> Ub) -> bbind (gets n) f l <> Ub.
Proof.
  intros Hn Hl H. apply bbind_no_ub; [now apply gets_codec|]. intros a r E. apply (codec_exact _ _ _ (gets_codec n Hn) _ _ _ Hl) in E.
  destruct E as [-> Hv]. apply H; [exact Hv|]. now apply bytes_app_r in Hl.
Qed.
Lemma n_nub {A B} (d : bdec A) e P n (f : list A -> bdec B) l : codec d e P -> bytes l ->
  (forall v l1, Forall P v -> bytes l1 -> f v l1 <> Ub) -> bbind (get_n n d) f l <> Ub.
Proof.
  intros C Hl H. apply bbind_no_ub; [now apply (get_n_codec d e P n C)|]. intros a r E.
  apply (codec_exact _ _ _ (get_n_codec d e P n C) _ _ _ Hl) in E.
  destruct E as [-> [Hv _]]. apply H; [exact Hv|]. now apply bytes_app_r in Hl.
Qed.
Lemma check_nub {A} b (d : bdec A) l : (b = true -> d l <> Ub) -> check_then b d l <> Ub.
Proof. unfold check_then. destruct b; [auto|discriminate]. Qed.
Lemma check_true {A} b (d : bdec A) l : b = true -> check_then b d l = d l.
Proof. now intros ->. Qed.
Ltac fwd := repeat first
  [ rewrite u_fwd by assumption
  | rewrite s_fwd by (lia || assumption)
  | rewrite (n_fwd _ _ _ _ _ _ _ _ (getu_codec 1)) by (assumption || reflexivity)
  | rewrite check_true by (apply Z.eqb_eq; assumption || reflexivity) ].
Ltac bwd1 := match goal with
  | Hl : bytes ?l, H : bbind (getu ?n) _ ?l = Ok _ |- _ => apply (u_inv n _ _ _ _ Hl) in H; destruct H as (? & ? & -> & ? & ? & H); clear Hl
  | Hl : bytes ?l, H : bbind (gets ?n) _ ?l = Ok _ |- _ => apply (s_inv n _ _ _ _ ltac:(lia) Hl) in H; destruct H as (? & ? & -> & ? & ? & H); clear Hl
  | Hl : bytes ?l, H : bbind (get_n ?n (getu 1)) _ ?l = Ok _ |- _ =>
      apply (n_inv _ _ _ n _ _ _ _ (getu_codec 1) Hl) in H; destruct H as (? & ? & -> & [? ?] & ? & H); clear Hl
  | H : check_then _ _ _ = Ok _ |- _ => apply check_inv in H; let E := fresh "E" in destruct H as [E H]; apply Z.eqb_eq in E
  end.
Ltac nub1 := match goal with
  | |- bbind (getu _) _ _ <> Ub => apply u_nub; [assumption|intros]
  | |- bbind (gets _) _ _ <> Ub => apply s_nub; [lia|assumption|intros]
  | |- bbind (get_n _ (getu 1)) _ _ <> Ub => apply (n_nub _ _ _ _ _ _ (getu_codec 1)); [assumption|intros]
  | |- check_then _ _ _ <> Ub => apply check_nub; intros
  | |- bret _ _ <> Ub => discriminate
  end.
Ltac all_ands := repeat match goal with H : _ /\ _ |- _ => destruct H end.
