(** Double arithmetic on times of week that are whole milliseconds *)
From Coq Require Import Reals Lra.
From Flocq Require Import Core.
From Verif Require Import Base Time_model Double_model Double_proofs Esf_proofs NmeaFields_proofs NmeaSeq_proofs Exact_proofs MsmVal_model MsmVal_proofs Abs_proofs LegVal_proofs TimeD_model.
From Verif Require Import Nmea_model.
Open Scope R_scope.

(** [x] holds [n] milliseconds (in seconds), exactly if they are whole seconds *)
Definition rep (e : R) (x : dbl) (n : Z) : Prop := ab x (IZR n / 1000) e /\ ((n mod 1000 = 0)%Z -> dR x = IZR n / 1000).
Lemma thousand n : (n mod 1000 = 0)%Z -> exists k, (n = 1000 * k)%Z /\ IZR n / 1000 = IZR k.
Proof. intros M. exists (n / 1000)%Z. pose proof (Z.div_mod n 1000 ltac:(lia)) as D. assert (E : (n = 1000 * (n / 1000))%Z) by lia. split; [exact E|]. rewrite E at 1. rewrite mult_IZR. field. Qed.
Lemma big a : Rabs a <= 10000000000 -> Rabs a <= bpow radix2 1000.
Proof. intros H. apply Rle_trans with (bpow radix2 40); [bpn; lra|apply bpow_le; lia]. Qed.
Lemma rep_of n : (Z.abs n <= 1000000000)%Z -> rep (/ 5000000000) (ddiv (dofZ n) (dofZ 1000)) n.
Proof.
  intros H. assert (B : -1000000000 <= IZR n <= 1000000000) by (split; apply IZR_le; lia). split.
  - apply (ab_div 21 1000000000 (/ 1000) _ _ _ _ 0 0); [apply ab_Z; lia|apply ab_Z; lia|lia|ra|lra|lra|lra|bl|bl].
  - intros M. destruct (thousand n M) as (k & -> & E). destruct (dofZ_exact (1000 * k) ltac:(lia)) as [F V]. destruct (dofZ_exact 1000 ltac:(lia)) as [F1 V1].
    destruct (ddiv_spec (dofZ (1000 * k)) (dofZ 1000) F ltac:(rewrite V1; lra)) as [_ W]. { rewrite V, V1. apply big. rewrite E. rewrite <- abs_IZR. apply IZR_le. lia. }
    rewrite W, V, V1, E. apply rnd_id, int_format. lia.
Qed.
Lemma rep_shift (f : dbl -> dbl -> dbl) e x n k k' : (f = dadd /\ k' = k \/ f = dsub /\ k' = - k)%Z ->
  rep e x n -> e <= / 1000000 -> (Z.abs n <= 1500000000)%Z -> (Z.abs k <= 605000)%Z -> (Z.abs (n + 1000 * k') <= 1500000000)%Z -> rep (e + / 5000000000) (f x (dofZ k)) (n + 1000 * k').
Proof.
  intros Hf [A X] He Hn Hk Hs. destruct (dofZ_exact k ltac:(lia)) as [F V].
  assert (NB : -1500000000 <= IZR n <= 1500000000) by (split; apply IZR_le; lia).
  assert (SB : -1500000000 <= IZR (n + 1000 * k') <= 1500000000) by (split; apply IZR_le; lia). rewrite plus_IZR, mult_IZR in SB.
  assert (VE : IZR (n + 1000 * k') / 1000 = IZR n / 1000 + IZR k') by (rewrite plus_IZR, mult_IZR; field).
  split.
  - rewrite VE. destruct Hf as [[-> ->]|[-> ->]].
    + apply (ab_add 21 1500000 _ _ _ _ e 0); [exact A|apply ab_Z; lia|lia|ra|bl|bl].
    + rewrite opp_IZR. rewrite opp_IZR in SB. apply (ab_sub 21 1500000 _ _ _ _ e 0); [exact A|apply ab_Z; lia|lia|ra|bl|bl].
  - intros M. assert (M' : (n mod 1000 = 0)%Z) by (rewrite <- M; replace (n + 1000 * k')%Z with (n + k' * 1000)%Z by ring; rewrite Z.mod_add by lia; reflexivity).
    specialize (X M'). destruct (thousand n M') as (j & Ej & E). rewrite VE. rewrite E in *. destruct A as [FX _].
    assert (JB : (Z.abs j <= 1500000)%Z) by lia.
    destruct Hf as [[-> ->]|[-> ->]].
    + destruct (dadd_spec x (dofZ k) FX F) as [_ W]. { rewrite X, V, <- plus_IZR, <- abs_IZR. apply Rle_trans with (IZR 3000000); [apply IZR_le; lia|]. rewrite <- (Rabs_pos_eq (IZR 3000000)) by lra. apply big. rewrite Rabs_pos_eq; lra. }
      rewrite W, X, V, <- plus_IZR. apply rnd_id, int_format. lia.
    + destruct (dsub_spec x (dofZ k) FX F) as [_ W]. { rewrite X, V, <- minus_IZR, <- abs_IZR. apply Rle_trans with (IZR 3000000); [apply IZR_le; lia|]. rewrite <- (Rabs_pos_eq (IZR 3000000)) by lra. apply big. rewrite Rabs_pos_eq; lra. }
      rewrite W, X, V, <- minus_IZR, opp_IZR. replace (IZR j + - IZR k) with (IZR (j - k)) by (rewrite minus_IZR; ring). apply rnd_id, int_format. lia.
Qed.
(** comparisons with whole seconds are those of the milliseconds *)
Lemma rep_order e x n k : rep e x n -> e <= / 1000000 -> (Z.abs k <= 2 ^ 40)%Z ->
  (dR x < IZR k <-> (n < 1000 * k)%Z) /\ (IZR k <= dR x <-> (1000 * k <= n)%Z).
Proof.
  intros [A X] He Hk. apply ab_iv in A. assert (Q : ((n < 1000 * k)%Z -> dR x < IZR k) /\ ((1000 * k <= n)%Z -> IZR k <= dR x)).
  { split; intros L.
    - assert (L1 : (n + 1 <= 1000 * k)%Z) by lia. apply IZR_le in L1. rewrite plus_IZR, mult_IZR in L1. lra.
    - destruct (Z.eq_dec n (1000 * k)) as [E|NE].
      + rewrite X by (rewrite E, Z.mul_comm; apply Z.mod_mul; lia). rewrite E, mult_IZR. lra.
      + assert (L1 : (1000 * k + 1 <= n)%Z) by lia. apply IZR_le in L1. rewrite plus_IZR, mult_IZR in L1. lra. }
  destruct Q as [Q1 Q2]. split; split; auto; intros L; destruct (Z.lt_ge_cases n (1000 * k)) as [C|C]; auto; exfalso; [specialize (Q2 C)|specialize (Q1 C)]; lra.
Qed.
Lemma rep_ltb e x n k : rep e x n -> e <= / 1000000 -> (Z.abs k <= 2 ^ 40)%Z -> dltb x (dofZ k) = (n <? 1000 * k)%Z /\ dleb (dofZ k) x = (1000 * k <=? n)%Z.
Proof.
  intros R He Hk. destruct (rep_order _ _ _ _ R He Hk) as [O1 O2]. destruct (dofZ_exact k ltac:(lia)) as [F V]. destruct R as [[FX _] _].
  rewrite dltb_spec, dleb_spec by assumption. rewrite V. split.
  - destruct (Z.ltb_spec n (1000 * k)) as [L|L]; [apply Rlt_bool_true; tauto|apply Rlt_bool_false]. apply Rnot_lt_le. intros C. apply O1 in C. lia.
  - destruct (Z.leb_spec (1000 * k) n) as [L|L]; [apply Rle_bool_true; tauto|apply Rle_bool_false]. apply Rnot_le_lt. intros C. apply O2 in C. lia.
Qed.
Lemma rep_ms e x n : rep e x n -> e <= / 1000000 -> (Z.abs n <= 1500000000)%Z -> drint (dmul x (dofZ 1000)) = Some n.
Proof.
  intros [A _] He Hn. assert (NB : -1500000000 <= IZR n <= 1500000000) by (split; apply IZR_le; lia).
  assert (B : ab (dmul x (dofZ 1000)) (IZR n / 1000 * 1000) (/ 100)) by (apply (ab_mul 31 1500000 1000 _ _ _ _ e 0); [exact A|apply ab_Z; lia|lia|ra|ra|bl|bl]).
  apply (ab_rint_eq _ _ _ n B). replace (IZR n / 1000 * 1000 - IZR n) with 0 by field. rewrite Rabs_R0. lra.
Qed.
Lemma rep_tow t n e : rep e (ds t) n -> e <= / 1000000 -> (0 <= n <= 1500000000)%Z -> sbp_tow t = Some n.
Proof. intros R He Hn. unfold sbp_tow. rewrite (rep_ms _ _ _ R He) by lia. cbn [conv]. destruct (Z.leb_spec 0 n); [|lia]. destruct (Z.leb_spec n (2 ^ 32 - 1)); [|lia]. reflexivity. Qed.
Lemma valid_rep t n e : rep e (ds t) n -> e <= / 1000000 -> valid_d t = ((0 <=? dw t) && (0 <=? n) && (n <? 604800000))%Z%bool.
Proof.
  intros R He. unfold valid_d. change d0 with (dofZ 0). destruct (rep_ltb _ _ _ 0 R He ltac:(lia)) as [_ ->]. destruct (rep_ltb _ _ _ 604800 R He ltac:(lia)) as [-> _]. reflexivity.
Qed.
(** a valid reference time *)
Lemma valid_bounds t : valid_d t = true -> dfin (ds t) = true -> (0 <= dw t)%Z /\ 0 <= dR (ds t) < 604800.
Proof.
  unfold valid_d. intros H F. destruct (dofZ_exact 0 ltac:(lia)) as [F0 V0]. destruct (dofZ_exact 604800 ltac:(lia)) as [F1 V1]. change d0 with (dofZ 0) in H.
  rewrite dleb_spec, dltb_spec, V0, V1 in H by assumption. apply andb_true_iff in H. destruct H as [H H3]. apply andb_true_iff in H. destruct H as [H1 H2].
  apply Z.leb_le in H1. destruct (Rle_bool_spec 0 (dR (ds t))); [|discriminate]. destruct (Rlt_bool_spec (dR (ds t)) 604800); [|discriminate]. split; [exact H1|lra].
Qed.
Lemma diff_ab a b n e : rep e (ds a) n -> e <= / 1000000 -> (0 <= n <= 1500000000)%Z -> (0 <= dw a)%Z -> (0 <= dw b)%Z -> (Z.abs (dw a - dw b) <= 1000)%Z -> dfin (ds b) = true -> 0 <= dR (ds b) < 604800 ->
  ab (difftime_d a b) (IZR n / 1000 - dR (ds b) + IZR ((dw a - dw b) * 604800)) (e + / 10000000).
Proof.
  intros [A _] He Hn WA WB WD F B. unfold difftime_d, WN_UNKNOWN. destruct (Z.eqb_spec (dw a) (-1)); [lia|]. destruct (Z.eqb_spec (dw b) (-1)); [lia|]. cbn [orb].
  assert (NB : 0 <= IZR n <= 1500000000) by (split; apply IZR_le; lia).
  assert (WB2 : -604800000 <= IZR ((dw a - dw b) * 604800) <= 604800000) by (split; apply IZR_le; lia).
  assert (AB : ab (ds b) (dR (ds b)) 0) by (split; [exact F|rewrite Rminus_diag_eq, Rabs_R0 by reflexivity; lra]).
  apply (ab_add 30 700000000 _ _ _ _ (e + / 1000000000) 0); [|apply ab_Z; lia|lia|ra|bl|bl].
  apply (ab_sub 21 1600000 _ _ _ _ e 0); [exact A|exact AB|lia|ra|bl|bl].
Qed.
Lemma ltb_cases x k : dfin x = true -> (Z.abs k <= 2 ^ 40)%Z -> (dltb x (dofZ k) = true -> dR x < IZR k) /\ (dltb x (dofZ k) = false -> IZR k <= dR x) /\ (dltb (dofZ k) x = true -> IZR k < dR x) /\ (dltb (dofZ k) x = false -> dR x <= IZR k).
Proof.
  intros F H. destruct (dofZ_exact k ltac:(lia)) as [G V]. rewrite !dltb_spec, V by assumption.
  split; [destruct (Rlt_bool_spec (dR x) (IZR k)); congruence|]. split; [destruct (Rlt_bool_spec (dR x) (IZR k)); [congruence|auto]|].
  split; [destruct (Rlt_bool_spec (IZR k) (dR x)); congruence|destruct (Rlt_bool_spec (IZR k) (dR x)); [congruence|auto]].
Qed.
(** seconds since the GPS epoch *)
Definition abs_s (t : dtime) : R := IZR (dw t) * 604800 + dR (ds t).
Definition abs_ms (w n : Z) : Z := (w * 604800000 + n)%Z.
Lemma gps_nearest tow rover : (0 <= tow < 604800000)%Z -> dfin (ds rover) = true -> valid_d rover = true -> (1 <= dw rover <= 32766)%Z ->
  exists t, gps_message_time_d tow rover = Some t /\ rep (/ 100000000) (ds t) tow /\ valid_d t = true /\ dfin (ds t) = true /\ sbp_tow t = Some tow /\ (1 - 1 <= dw t <= 32767)%Z /\ Rabs (IZR (abs_ms (dw t) tow) / 1000 - abs_s rover) <= 302400 + / 1000000.
Proof.
  intros T F V W. destruct (valid_bounds _ V F) as [W0 B]. assert (R := rep_of tow ltac:(lia)). unfold gps_message_time_d, WEEK_MS.
  destruct (Z.leb_spec 604800000 tow); [lia|]. rewrite V. cbn [negb]. cbv zeta. set (x := ddiv (dofZ tow) (dofZ 1000)) in *.
  assert (D := diff_ab (mkdt (dw rover) x) rover tow _ R ltac:(lra) ltac:(lia) W0 W0). cbn [dw] in D. specialize (D ltac:(rewrite Z.sub_diag; lia) F B). rewrite Z.sub_diag, Z.mul_0_l in D.
  set (d := difftime_d _ rover) in *. pose proof (ab_fin _ _ _ D) as FD. apply ab_iv in D.
  destruct (ltb_cases d (-302400) FD ltac:(lia)) as (L1 & L2 & _). destruct (ltb_cases d 302400 FD ltac:(lia)) as (_ & _ & L3 & L4).
  unfold INT16_MAX. destruct (Z.eqb_spec (dw rover) 32767); [lia|]. destruct (Z.eqb_spec (dw rover) 0); [lia|]. cbn [negb]. rewrite !andb_true_r.
  assert (TB : 0 <= IZR tow <= 604800000) by (split; apply IZR_le; lia).
  assert (FIN : forall w, (0 <= w <= 32767)%Z -> -302400 - / 1000000 <= IZR (w - dw rover) * 604800 + IZR tow / 1000 - dR (ds rover) <= 302400 + / 1000000 ->
    exists t, (if valid_d (mkdt w x) then Some (mkdt w x) else None) = Some t /\ rep (/ 100000000) (ds t) tow /\ valid_d t = true /\ dfin (ds t) = true /\ sbp_tow t = Some tow /\ (1 - 1 <= dw t <= 32767)%Z /\ Rabs (IZR (abs_ms (dw t) tow) / 1000 - abs_s rover) <= 302400 + / 1000000).
  { intros w Hw Hd. assert (VV : valid_d (mkdt w x) = true).
    { rewrite (valid_rep (mkdt w x) tow _ R ltac:(lra)). cbn [dw]. apply andb_true_iff. split; [apply andb_true_iff; split; apply Z.leb_le; lia|apply Z.ltb_lt; lia]. }
    rewrite VV. eexists. split; [reflexivity|]. split; [destruct R as [A X]; split; [apply (ab_weaken _ _ _ _ A); lra|exact X]|]. split; [exact VV|]. cbn [dw ds]. split; [apply R|]. split; [apply (rep_tow (mkdt w x) _ _ R); [lra|lia]|]. split; [lia|].
    rewrite minus_IZR in Hd. unfold abs_ms, abs_s. rewrite plus_IZR, mult_IZR. apply Rabs_le. lra. }
  destruct (dltb d (dofZ (-302400))) eqn:E1; [|destruct (dltb (dofZ 302400) d) eqn:E2].
  - apply FIN; [lia|]. replace (dw rover + 1 - dw rover)%Z with 1%Z by ring. specialize (L1 eq_refl). lra.
  - apply FIN; [lia|]. replace (dw rover - 1 - dw rover)%Z with (-1)%Z by ring. specialize (L3 eq_refl). lra.
  - apply FIN; [lia|]. rewrite Z.sub_diag. specialize (L2 eq_refl). specialize (L4 eq_refl). lra.
Qed.
(** normalisation *)
Lemma normalize_rep e w x n : rep e x n -> e <= / 10000000 -> (-604800000 <= n < 1209600000)%Z -> (0 <= w)%Z -> (0 <= w + n / 604800000 <= 32767)%Z ->
  exists y, normalize_d (mkdt w x) = Some (mkdt (w + n / 604800000) y) /\ rep (e + / 5000000000) y (n mod 604800000).
Proof.
  intros R He Hn Hw Hw2. unfold normalize_d. cbn [ds dw]. change d0 with (dofZ 0).
  destruct (rep_ltb _ _ _ 0 R ltac:(lra) ltac:(lia)) as [-> _]. destruct (rep_ltb _ _ _ 604800 R ltac:(lra) ltac:(lia)) as [_ ->]. unfold INT16_MAX.
  assert (UP : forall q r, (n = q * 604800000 + r)%Z -> (0 <= r < 604800000)%Z -> (n / 604800000 = q /\ n mod 604800000 = r)%Z).
  { intros q r E B. split; [symmetry; apply (Z.div_unique_pos _ _ _ r); lia|symmetry; apply (Z.mod_unique_pos _ _ q); lia]. }
  destruct (Z.ltb_spec n (1000 * 0)) as [L|L]; [|destruct (Z.leb_spec (1000 * 604800) n) as [L2|L2]].
  - destruct (UP (-1)%Z (n + 604800000)%Z ltac:(lia) ltac:(lia)) as [E1 E2]. rewrite E1, E2 in *. cbn [dw]. destruct (Z.ltb_spec w 0); [lia|]. destruct (Z.ltb_spec (w - 1) 0); [lia|]. destruct (Z.ltb_spec 32767 (w - 1)); [lia|]. cbn [orb].
    eexists. split; [reflexivity|]. apply (rep_shift dadd _ _ _ 604800 604800); [left; split; reflexivity|exact R|lra|lia|lia|lia].
  - destruct (UP 1%Z (n - 604800000)%Z ltac:(lia) ltac:(lia)) as [E1 E2]. rewrite E1, E2 in *. cbn [dw]. destruct (Z.ltb_spec w 0); [lia|]. destruct (Z.ltb_spec (w + 1) 0); [lia|]. destruct (Z.ltb_spec 32767 (w + 1)); [lia|]. cbn [orb].
    eexists. split; [reflexivity|]. replace (n - 604800000)%Z with (n + 1000 * (-604800))%Z by ring. apply (rep_shift dsub _ _ _ 604800 (-604800)); [right; split; reflexivity|exact R|lra|lia|lia|lia].
  - destruct (UP 0%Z n ltac:(lia) ltac:(lia)) as [E1 E2]. rewrite E1, E2 in *. rewrite Z.add_0_r in *. cbn [dw]. destruct (Z.ltb_spec w 0); [lia|]. destruct (Z.ltb_spec 32767 w); [lia|]. cbn [orb].
    eexists. split; [reflexivity|]. destruct R as [A X]. split; [apply (ab_weaken _ _ _ _ A); lra|exact X].
Qed.
Lemma glo_nearest tod rover leap : (0 <= tod < 86401000)%Z -> (-128 <= leap <= 127)%Z -> dfin (ds rover) = true -> valid_d rover = true -> (2 < dw rover < 32765)%Z ->
  exists t n, glo_time_d tod rover leap = Some t /\ rep (/ 100000000) (ds t) n /\ valid_d t = true /\ dfin (ds t) = true /\ sbp_tow t = Some n /\ (0 <= n < 604800000)%Z /\
    ((n - leap * 1000 + 10800000 - tod) mod 86400000 = 0)%Z /\ Rabs (IZR (abs_ms (dw t) n) / 1000 - abs_s rover) <= 43200 + / 1000000.
Proof.
  intros T L F V W. destruct (valid_bounds _ V F) as [W0 B]. unfold glo_time_d, DAY_MS. destruct (Z.leb_spec (86400000 + 1000) tod); [lia|]. rewrite V. cbn [negb].
  set (r := dR (ds rover)) in *. assert (AB : ab (ds rover) r 0) by (split; [exact F|unfold r; rewrite Rminus_diag_eq, Rabs_R0 by reflexivity; lra]).
  assert (Q : ab (ddiv (ds rover) (dofZ 86400)) (r / 86400) (/ 1000000000000000)) by (apply (ab_div 3 604800 (/ 86400) _ _ _ _ 0 0); [exact AB|apply ab_Z; lia|lia|ra|lra|lra|lra|bl|bl]).
  destruct (ab_trunc _ _ _ Q ltac:(lra) ltac:(lra)) as (dow & -> & D0 & D1).
  assert (D7 : (dow <= 7)%Z). { apply Z.lt_succ_r. apply lt_IZR. unfold Z.succ. rewrite plus_IZR. lra. }
  cbn [conv]. destruct (Z.leb_spec 0 dow); [|lia]. destruct (Z.leb_spec dow 255); [|lia]. cbn [andb].
  set (n0 := (dow * 86400 * 1000 + (tod - 3 * 3600 * 1000) + leap * 1000)%Z). cbv zeta.
  assert (N0 : (-10928000 <= n0 <= 680527999)%Z) by (unfold n0; lia).
  assert (DD : 86400000 * IZR dow - 10928000 <= IZR n0 <= 86400000 * IZR dow + 75728000).
  { split; [replace (86400000 * IZR dow - 10928000) with (IZR (86400000 * dow - 10928000)) by (rewrite minus_IZR, mult_IZR; ring)|replace (86400000 * IZR dow + 75728000) with (IZR (86400000 * dow + 75728000)) by (rewrite plus_IZR, mult_IZR; ring)]; apply IZR_le; unfold n0; lia. }
  assert (DR : -97328 - / 100000000 <= IZR n0 / 1000 - r <= 75728 + / 100000000) by lra.
  set (wn := (if (n0 <? 0)%Z then (dw rover - 1, n0 + WEEK_MS) else (dw rover, n0))%Z).
  assert (WN : exists w1 n1, wn = (w1, n1) /\ (0 <= n1 <= 680527999)%Z /\ abs_ms w1 n1 = abs_ms (dw rover) n0 /\ (dw rover - 1 <= w1 <= dw rover)%Z).
  { unfold wn, abs_ms, WEEK_MS. destruct (Z.ltb_spec n0 0); eexists _, _; (split; [reflexivity|]); lia. }
  destruct WN as (w1 & n1 & -> & N1 & A1 & W1).
  assert (R1 := rep_of n1 ltac:(lia)). set (x1 := ddiv (dofZ n1) (dofZ 1000)) in *.
  pose proof (Z.div_mod n1 604800000 ltac:(lia)) as DM1. pose proof (Z.mod_pos_bound n1 604800000 ltac:(lia)) as MB1.
  assert (QB1 : (0 <= n1 / 604800000 <= 1)%Z) by (clear - DM1 MB1 N1; lia).
  destruct (normalize_rep _ w1 x1 n1 R1 ltac:(lra) ltac:(lia) ltac:(lia) ltac:(lia)) as (x2 & -> & R2). cbn [dw ds].
  set (w2 := (w1 + n1 / 604800000)%Z) in *. set (n2 := (n1 mod 604800000)%Z) in *.
  assert (A2 : abs_ms w2 n2 = abs_ms (dw rover) n0) by (rewrite <- A1; unfold abs_ms, w2, n2; lia).
  assert (W2 : (dw rover - 1 <= w2 <= dw rover + 1)%Z) by (unfold w2; lia).
  assert (D := diff_ab (mkdt w2 x2) rover n2 _ R2 ltac:(lra) ltac:(lia)). cbn [dw ds] in D. specialize (D ltac:(lia) W0 ltac:(lia) F B). fold r in D.
  assert (DV : IZR n2 / 1000 - r + IZR ((w2 - dw rover) * 604800) = IZR n0 / 1000 - r).
  { unfold abs_ms in A2. apply (f_equal IZR) in A2. rewrite !plus_IZR, !mult_IZR in A2. rewrite mult_IZR, minus_IZR. lra. }
  rewrite DV in D. set (d := difftime_d _ rover) in *. pose proof (ab_fin _ _ _ D) as FD. apply ab_iv in D.
  destruct (dabs_spec d FD) as [FA VA]. destruct (ltb_cases (dabs d) 43200 FA ltac:(lia)) as (_ & _ & L3 & L4). rewrite VA in L3, L4.
  change d0 with (dofZ 0). destruct (ltb_cases d 0 FD ltac:(lia)) as (L5 & L6 & _).
  assert (CONG : forall k, ((n0 + k * 86400000 - leap * 1000 + 10800000 - tod) mod 86400000 = 0)%Z).
  { intros k. unfold n0. replace (_ - _)%Z with ((dow + k) * 86400000)%Z by ring. apply Z.mod_mul. lia. }
  assert (FIN : forall w y n k, (0 <= w)%Z -> rep (/ 100000000) y n -> (0 <= n < 604800000)%Z -> abs_ms w n = (abs_ms (dw rover) n0 + k * 86400000)%Z -> - (43200 + / 1000000) <= IZR n0 / 1000 - r + IZR k * 86400 <= 43200 + / 1000000 ->
    exists t n, Some (mkdt w y) = Some t /\ rep (/ 100000000) (ds t) n /\ valid_d t = true /\ dfin (ds t) = true /\ sbp_tow t = Some n /\ (0 <= n < 604800000)%Z /\
    ((n - leap * 1000 + 10800000 - tod) mod 86400000 = 0)%Z /\ Rabs (IZR (abs_ms (dw t) n) / 1000 - abs_s rover) <= 43200 + / 1000000).
  { intros w y n k Pw Ry Bn An Dn. exists (mkdt w y), n. split; [reflexivity|]. cbn [dw ds]. split; [exact Ry|].
    split. { rewrite (valid_rep (mkdt w y) n _ Ry ltac:(lra)). cbn [dw]. apply andb_true_iff. split; [apply andb_true_iff; split; apply Z.leb_le; lia|apply Z.ltb_lt; lia]. }
    split; [apply Ry|]. split; [apply (rep_tow (mkdt w y) _ _ Ry); [lra|lia]|]. split; [exact Bn|]. split.
    - rewrite <- (CONG (k + 7 * (dw rover - w))%Z). f_equal. unfold abs_ms in An. lia.
    - rewrite An. unfold abs_s. fold r. rewrite plus_IZR. unfold abs_ms. rewrite plus_IZR, !mult_IZR. apply Rabs_le. lra. }
  destruct (dltb (dofZ 43200) (dabs d)) eqn:E1.
  - specialize (L3 eq_refl). clear L4.
    assert (FIN2 : forall k, (k = 1 \/ k = -1)%Z -> - (43200 + / 1000000) <= IZR n0 / 1000 - r + IZR k * 86400 <= 43200 + / 1000000 ->
      exists t n, normalize_d (mkdt w2 (dadd x2 (dofZ (k * 86400)))) = Some t /\ rep (/ 100000000) (ds t) n /\ valid_d t = true /\ dfin (ds t) = true /\ sbp_tow t = Some n /\ (0 <= n < 604800000)%Z /\
      ((n - leap * 1000 + 10800000 - tod) mod 86400000 = 0)%Z /\ Rabs (IZR (abs_ms (dw t) n) / 1000 - abs_s rover) <= 43200 + / 1000000).
    { intros k Hk Dk. set (n3 := (n2 + 1000 * (k * 86400))%Z). assert (N3 : (-86400000 <= n3 < 691200000)%Z) by (unfold n3; lia).
      assert (R3 : rep (/ 50000000 - / 100000000) (dadd x2 (dofZ (k * 86400))) n3).
      { destruct (rep_shift dadd _ _ _ (k * 86400) (k * 86400) (or_introl (conj eq_refl eq_refl)) R2 ltac:(lra) ltac:(lia) ltac:(lia) ltac:(lia)) as [A X]. split; [apply (ab_weaken _ _ _ _ A); lra|exact X]. }
      assert (R3' : rep (/ 1000000000) (dadd x2 (dofZ (k * 86400))) n3).
      { destruct (rep_shift dadd _ _ _ (k * 86400) (k * 86400) (or_introl (conj eq_refl eq_refl)) R2 ltac:(lra) ltac:(lia) ltac:(lia) ltac:(lia)) as [A X]. split; [apply (ab_weaken _ _ _ _ A); lra|exact X]. }
      clear R3. pose proof (Z.div_mod n3 604800000 ltac:(lia)) as DM3. pose proof (Z.mod_pos_bound n3 604800000 ltac:(lia)) as MB3.
      assert (QB3 : (-1 <= n3 / 604800000 <= 1)%Z) by (clear - DM3 MB3 N3; lia).
      destruct (normalize_rep _ w2 _ n3 R3' ltac:(lra) ltac:(lia) ltac:(lia) ltac:(lia)) as (y & -> & Ry).
      apply (FIN _ y (n3 mod 604800000)%Z k); [lia| |exact MB3| |exact Dk].
      - destruct Ry as [A X]. split; [apply (ab_weaken _ _ _ _ A); lra|exact X].
      - rewrite <- A2. unfold abs_ms. unfold n3 in *. lia. }
    destruct (dltb d (dofZ 0)) eqn:E2.
    + specialize (L5 eq_refl). rewrite Rabs_left in L3 by exact L5. apply (FIN2 1%Z); [left; reflexivity|]. lra.
    + specialize (L6 eq_refl). rewrite Rabs_right in L3 by lra. apply (FIN2 (-1)%Z); [right; reflexivity|]. lra.
  - specialize (L4 eq_refl). apply Rabs_le_inv in L4. apply (FIN w2 x2 n2 0%Z); [lia| |exact MB1|rewrite A2; ring|lra].
    destruct R2 as [A X]. split; [apply (ab_weaken _ _ _ _ A); lra|exact X].
Qed.
(** comparisons of two times in whole milliseconds *)
Section Two.
Variables (a b : dtime) (n m : Z).
Hypothesis Ra : rep (/ 100000000) (ds a) n.
Hypothesis Rb : rep (/ 100000000) (ds b) m.
Hypothesis Hn : (0 <= n < 604800000)%Z.
Hypothesis Hm : (0 <= m < 604800000)%Z.
Hypothesis Wa : (0 <= dw a)%Z.
Hypothesis Wb : (0 <= dw b)%Z.
Hypothesis WD : (Z.abs (dw a - dw b) <= 1000)%Z.
Lemma diff_ms : ab (difftime_d a b) (IZR (abs_ms (dw a) n - abs_ms (dw b) m) / 1000) (/ 1000000).
Proof.
  assert (B := valid_rep b m _ Rb ltac:(lra)). assert (V : valid_d b = true) by (rewrite B; apply andb_true_iff; split; [apply andb_true_iff; split; apply Z.leb_le; lia|apply Z.ltb_lt; lia]).
  destruct Rb as [[FB BB] _]. destruct (valid_bounds b V FB) as [_ BD].
  pose proof (diff_ab a b n _ Ra ltac:(lra) ltac:(lia) Wa Wb WD FB BD) as D. apply Rabs_le_inv in BB.
  apply (ab_move _ _ _ _ (/ 100000000) _ D); [|lra]. unfold abs_ms. rewrite minus_IZR, !plus_IZR, !mult_IZR, minus_IZR. apply Rabs_le. lra.
Qed.
Lemma later_ms : later_d a b = (abs_ms (dw b) m <? abs_ms (dw a) n)%Z.
Proof.
  unfold later_d. pose proof diff_ms as D. set (d := difftime_d a b) in *. set (N := (abs_ms (dw a) n - abs_ms (dw b) m)%Z) in *.
  assert (H : ab (ddiv (ddiv (dofZ 5) (dofZ 10)) (dofZ 1000)) (/ 2 / 1000) (/ 1000000)).
  { apply (ab_div 0 1 (/ 1000) _ _ _ _ (/ 1000000) 0); [|apply ab_Z; lia|lia|ra|lra|lra|lra|bl|bl]. apply (ab_eq _ (5 / 10)); [|lra].
    apply (ab_div 0 5 (/ 10) _ _ _ _ 0 0); [apply ab_Z; lia|apply ab_Z; lia|lia|ra|lra|lra|lra|bl|bl]. }
  pose proof (ab_fin _ _ _ D) as FD. pose proof (ab_fin _ _ _ H) as FH. apply ab_iv in D. apply ab_iv in H. rewrite dltb_spec by assumption.
  destruct (Z.ltb_spec (abs_ms (dw b) m) (abs_ms (dw a) n)) as [C|C].
  - assert (1 <= IZR N) by (apply (IZR_le 1); unfold N; lia). apply Rlt_bool_true. lra.
  - assert (IZR N <= 0) by (apply (IZR_le _ 0); unfold N; lia). apply Rlt_bool_false. lra.
Qed.
Lemma active_ms : abs_ms (dw a) n <> (abs_ms (dw b) m + 5000)%Z -> msm_active_d a b = (abs_ms (dw a) n <? abs_ms (dw b) m + 5000)%Z.
Proof.
  intros NE. unfold msm_active_d. rewrite (valid_rep b m _ Rb ltac:(lra)). destruct (Z.leb_spec 0 (dw b)); [|lia]. destruct (Z.leb_spec 0 m); [|lia]. destruct (Z.ltb_spec m 604800000); [|lia]. cbn [andb].
  pose proof diff_ms as D. set (d := difftime_d a b) in *. set (N := (abs_ms (dw a) n - abs_ms (dw b) m)%Z) in *. pose proof (ab_fin _ _ _ D) as FD. apply ab_iv in D.
  destruct (dofZ_exact 5 ltac:(lia)) as [F5 V5]. rewrite dltb_spec, V5 by assumption.
  destruct (Z.ltb_spec (abs_ms (dw a) n) (abs_ms (dw b) m + 5000)) as [C|C].
  - assert (IZR N <= 4999) by (apply IZR_le; unfold N; lia). apply Rlt_bool_true. lra.
  - assert (5001 <= IZR N) by (apply IZR_le; unfold N; lia). apply Rlt_bool_false. lra.
Qed.
(** whole seconds are compared exactly *)
Lemma active_whole : (n mod 1000 = 0)%Z -> (m mod 1000 = 0)%Z -> msm_active_d a b = (abs_ms (dw a) n <? abs_ms (dw b) m + 5000)%Z.
Proof.
  intros En Em. destruct (Z.eq_dec (abs_ms (dw a) n) (abs_ms (dw b) m + 5000)) as [E|NE]; [|apply active_ms; exact NE].
  unfold msm_active_d. rewrite (valid_rep b m _ Rb ltac:(lra)). destruct (Z.leb_spec 0 (dw b)); [|lia]. destruct (Z.leb_spec 0 m); [|lia]. destruct (Z.ltb_spec m 604800000); [|lia]. cbn [andb].
  destruct (Z.ltb_spec (abs_ms (dw a) n) (abs_ms (dw b) m + 5000)); [lia|]. unfold difftime_d, WN_UNKNOWN. destruct (Z.eqb_spec (dw a) (-1)); [lia|]. destruct (Z.eqb_spec (dw b) (-1)); [lia|]. cbn [orb].
  destruct Ra as [[FA _] XA]. destruct Rb as [[FB _] XB]. specialize (XA En). specialize (XB Em).
  destruct (thousand n En) as (i & Ei & Vi). destruct (thousand m Em) as (j & Ej & Vj). rewrite Vi in XA. rewrite Vj in XB.
  assert (IB : (0 <= i < 604800)%Z) by lia. assert (JB : (0 <= j < 604800)%Z) by lia.
  destruct (dsub_spec (ds a) (ds b) FA FB) as [FS WS]. { rewrite XA, XB, <- minus_IZR, <- abs_IZR. apply Rle_trans with (IZR 3000000); [apply IZR_le; lia|]. rewrite <- (Rabs_pos_eq (IZR 3000000)) by lra. apply big. rewrite Rabs_pos_eq; lra. }
  rewrite XA, XB, <- minus_IZR, rnd_id in WS by (apply int_format; lia).
  destruct (dofZ_exact ((dw a - dw b) * 604800) ltac:(lia)) as [FK WK].
  destruct (dadd_spec _ _ FS FK) as [FT WT]. { rewrite WS, WK, <- plus_IZR, <- abs_IZR. apply Rle_trans with (IZR 1000000000); [apply IZR_le; lia|]. rewrite <- (Rabs_pos_eq (IZR 1000000000)) by lra. apply big. rewrite Rabs_pos_eq; lra. }
  rewrite WS, WK, <- plus_IZR, rnd_id in WT by (apply int_format; lia).
  destruct (dofZ_exact 5 ltac:(lia)) as [F5 V5]. rewrite dltb_spec, V5, WT by assumption. apply Rlt_bool_false. apply IZR_le. unfold abs_ms in E. lia.
Qed.
End Two.
