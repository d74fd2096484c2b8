(** Proofs for C86. *)
From Coq Require Import Reals Permutation.
From Verif Require Import Base Time_model RtcmMsm_model RtcmMsm_spec Signals_model Signals_spec Sbp2Rtcm_model Sbp2Msm_model Sbp2Msm_spec MsmVal_spec ObsBuffer_model ObsBuffer_spec RxTx_spec ObsOut_spec Settled_spec.
Local Open Scope Z_scope.

Lemma sender_again stn : 0 <= stn < 4096 -> sender_of (sender_of stn mod 4096) = sender_of stn.
Proof.
  intros S. unfold sender_of. change 4096 with (2 ^ 12). apply Z.bits_inj'. intros n Hn. rewrite !Z.lor_spec. destruct (Z.ltb_spec n 12) as [L|L].
  - rewrite Z.mod_pow2_bits_low by lia. rewrite Z.lor_spec. destruct (Z.testbit stn n), (Z.testbit 61568 n); reflexivity.
  - rewrite Z.mod_pow2_bits_high by lia. rewrite <- (Z.mod_small stn (2 ^ 12)) by (change (2 ^ 12) with 4096; lia). rewrite Z.mod_pow2_bits_high by lia. reflexivity.
Qed.
Lemma flags_eq a b : 0 <= a < 16 -> 0 <= b < 16 -> Z.testbit a 0 = Z.testbit b 0 -> Z.testbit a 1 = Z.testbit b 1 -> Z.testbit a 2 = Z.testbit b 2 -> Z.testbit a 3 = Z.testbit b 3 -> a = b.
Proof.
  intros A B H0 H1 H2 H3. apply Z.bits_inj'. intros n Hn. destruct (Z.eq_dec n 0) as [->|]; [exact H0|]. destruct (Z.eq_dec n 1) as [->|]; [exact H1|]. destruct (Z.eq_dec n 2) as [->|]; [exact H2|]. destruct (Z.eq_dec n 3) as [->|]; [exact H3|].
  rewrite <- (Z.mod_small a (2 ^ 4)) by (change (2 ^ 4) with 16; lia). rewrite <- (Z.mod_small b (2 ^ 4)) by (change (2 ^ 4) with 16; lia). rewrite !Z.mod_pow2_bits_high by lia. reflexivity.
Qed.

Lemma Permutation_length_len {A} (a b : list A) : Permutation a b -> len a = len b.
Proof. intros P. unfold len. rewrite (Permutation_length P). reflexivity. Qed.

Section P.
Variables (carrier num_of : code -> Z) (code_of : Z -> code) (ty : Z) (tx rx : list Z) (masked : RtcmMsm_model.cons -> bool).
Hypothesis NUM : forall k, code_of (num_of k) = k.
Notation close := (close carrier code_of ty tx rx).
Notation settled := (settled carrier num_of code_of ty tx rx masked).
Notation relayed := (relayed carrier code_of ty tx rx masked).
Notation obs_ok := (obs_ok num_of masked).

(** a settled observation arrives unchanged *)
Lemma settled_same os o r : settled os o -> relayed os o r -> (forall o', r = Some o' -> obs_ok o') -> r = Some o.
Proof.
  intros (OK & CN & NQ & MK & NC & PH & DP) (_ & RL) OKr. specialize (RL NQ). unfold outcome in RL. cbv zeta in RL.
  destruct OK as (P1 & P2 & P3 & P4 & P5 & P6 & P7 & P8 & F0 & F1 & F3 & k & c & K1 & K2 & K3 & _).
  assert (SK : sig_of code_of o = k) by (unfold sig_of; rewrite K1; apply NUM).
  destruct r as [o'|].
  2:{ exfalso. destruct RL as [[(c' & C1 & C2)|D]|N]; [rewrite (MK _ C1) in C2; discriminate|rewrite SK, K3 in D; discriminate|exact (N NC)]. }
  destruct RL as (_ & (R1 & R2 & R3 & R4 & R5 & R6 & R7 & R8) & (C1 & C3)). specialize (OKr o' eq_refl).
  destruct OKr as (Q1 & Q2 & Q3 & Q4 & Q5 & Q6 & Q7 & Q8 & G0 & G1 & G3 & k' & c' & L1 & L2 & L3 & _).
  assert (KK : k' = k) by (unfold sig_of in R2; rewrite L1, K1, !NUM in R2; exact R2).
  unfold flag in *. f_equal.
  assert (E1 : Z.testbit (o_flags o') 1 = Z.testbit (o_flags o) 1 /\ o_Li o' = o_Li o /\ o_Lf o' = o_Lf o /\ Z.testbit (o_flags o') 2 = Z.testbit (o_flags o) 2).
  { destruct (Z.testbit (o_flags o') 1) eqn:T'.
    - destruct (R5 eq_refl) as (A & B & C & D). rewrite A. auto.
    - destruct (Z.testbit (o_flags o) 1) eqn:T; [destruct (PH eq_refl) as (A & B & C); specialize (C1 eq_refl A B C); discriminate|]. destruct (F1 eq_refl) as (A & B & C), (G1 eq_refl) as (A' & B' & C'). rewrite A, B, C, A', B', C'. auto. }
  assert (E3 : Z.testbit (o_flags o') 3 = Z.testbit (o_flags o) 3 /\ o_Di o' = o_Di o /\ o_Df o' = o_Df o).
  { destruct (Z.testbit (o_flags o') 3) eqn:T'.
    - destruct (R6 eq_refl) as (_ & A & B & C). rewrite A. auto.
    - destruct (Z.testbit (o_flags o) 3) eqn:T; [destruct (DP eq_refl) as (A & B & C); specialize (C3 A eq_refl B C); discriminate|]. destruct (F3 eq_refl) as (A & B), (G3 eq_refl) as (A' & B'). rewrite A, B, A', B'. auto. }
  destruct E1 as (E1 & E1a & E1b & E2), E3 as (E3 & E3a & E3b).
  assert (EF : o_flags o' = o_flags o) by (apply flags_eq; [exact Q8|exact P8|congruence|exact E1|exact E2|exact E3]).
  assert (EL : o_lock o' = o_lock o) by (rewrite R7; apply Z.mod_small; lia).
  assert (EC : o_cn0 o' = o_cn0 o).
  { assert (C4 : o_cn0 o < 254). { pose proof (Z.div_mod (o_cn0 o) 4 ltac:(lia)). lia. } destruct (R8 C4) as [A B]. pose proof (Z.div_mod (o_cn0 o) 4 ltac:(lia)). pose proof (Z.div_mod (o_cn0 o') 4 ltac:(lia)). lia. }
  assert (EK : o_code o' = o_code o) by congruence.
  clear - EF EL EC EK E1a E1b E3a E3b R1 R4. destruct o as [x1 x2 x3 x4 x5 x6 x7 x8 x9 xa], o' as [y1 y2 y3 y4 y5 y6 y7 y8 y9 ya]. cbn [o_P o_Li o_Lf o_Di o_Df o_cn0 o_lock o_flags o_sat o_code] in *. congruence.
Qed.
Lemma all_same os : Forall (settled os) os -> forall ord opts, Forall2 (relayed os) ord opts -> (forall o, In o ord -> In o os) -> Forall obs_ok (RxTx_spec.somes opts) -> RxTx_spec.somes opts = ord.
Proof.
  intros S ord opts F. induction F as [|o r ord opts R F IH]; intros I OK; [reflexivity|]. change (RxTx_spec.somes (r :: opts)) with ((match r with Some o => [o] | None => [] end) ++ RxTx_spec.somes opts) in *. apply Forall_app in OK. destruct OK as [OK1 OK2].
  rewrite IH; [|intros x Hx; apply I; right; exact Hx|exact OK2]. rewrite Forall_forall in S. rewrite (settled_same os o r); [reflexivity|apply S, I; left; reflexivity|exact R|]. intros o' ->. inversion OK1; assumption.
Qed.

(** what arrives of an epoch of close values is settled *)
Lemma somes_source os ord opts o' : Forall2 (relayed os) ord opts -> In o' (RxTx_spec.somes opts) -> exists o, In o ord /\ relayed os o (Some o').
Proof.
  induction 1 as [|o r ord opts R F IH]; intros I; [destruct I|]. change (RxTx_spec.somes (r :: opts)) with ((match r with Some o => [o] | None => [] end) ++ RxTx_spec.somes opts) in I. apply in_app_or in I. destruct I as [I|I].
  - destruct r as [x|]; [|destruct I]. destruct I as [->|[]]. exists o. split; [left; reflexivity|exact R].
  - destruct (IH I) as (o2 & A & B). exists o2. split; [right; exact A|exact B].
Qed.
Lemma relayed_some os o o' : relayed os o (Some o') -> ~ of_cons code_of cQZS o /\ (forall c, cons_of (sig_of code_of o) = Some c -> masked c = false) /\ received code_of ty o o'.
Proof.
  intros (Q & R). assert (NQ : ~ of_cons code_of cQZS o) by (intros X; specialize (Q X); discriminate). specialize (R NQ). destruct R as (D & RC & _). split; [exact NQ|]. split; [|exact RC].
  intros c C. destruct (masked c) eqn:M; [|reflexivity]. exfalso. apply D. left. exists c. auto.
Qed.
(** what of an observation its received version keeps *)
Lemma same_of os o o' : relayed os o (Some o') -> o_sat o' = o_sat o /\ sig_of code_of o' = sig_of code_of o /\ o_P o' = o_P o.
Proof. intros R. apply relayed_some in R. destruct R as (_ & _ & (A & B & _ & C & _)). auto. Qed.
Lemma close_after os ord opts o o' : Permutation ord os -> Forall2 (relayed os) ord opts -> relayed os o (Some o') -> close os o -> close (RxTx_spec.somes opts) o'.
Proof.
  intros PM F R (NC & PH & DP). pose proof (same_of _ _ _ R) as (S1 & S2 & S3). apply relayed_some in R. destruct R as (_ & _ & (_ & _ & _ & _ & R5 & R6 & _)).
  assert (SRC : forall o2', In o2' (RxTx_spec.somes opts) -> exists o2, In o2 os /\ relayed os o2 (Some o2')).
  { intros o2' I. destruct (somes_source _ _ _ _ F I) as (o2 & A & B). exists o2. split; [eapply Permutation_in; eassumption|exact B]. }
  assert (SS : forall o2 o2', relayed os o2 (Some o2') -> same_sat code_of o' o2' -> same_sat code_of o o2).
  { intros o2 o2' R2 (A & B). destruct (same_of _ _ _ R2) as (A1 & A2 & _). split; congruence. }
  assert (FC : fcn_of tx o' = fcn_of tx o) by (unfold fcn_of; rewrite S1; reflexivity).
  split; [|split].
  - intros o2' I SA. destruct (SRC _ I) as (o2 & I2 & R2). specialize (NC o2 I2 (SS _ _ R2 SA)). unfold range_m in *. destruct (same_of _ _ _ R2) as (_ & _ & ->). rewrite S3. exact NC.
  - intros T. destruct (R5 T) as (T0 & L1 & L2 & _). destruct (PH T0) as (A & B & C). split; [|split].
    + unfold freq_known in *. rewrite S2, FC. exact A.
    + unfold freq_known_rx in *. rewrite S2. unfold fcn_of in *. rewrite S1. exact B.
    + intros o2' I SA. destruct (SRC _ I) as (o2 & I2 & R2). specialize (C o2 I2 (SS _ _ R2 SA)). unfold phase_m, range_m, freq in *. destruct (same_of _ _ _ R2) as (_ & _ & ->). rewrite S2, FC, L1, L2. exact C.
  - intros T. destruct (R6 T) as (T5 & T0 & L1 & L2). destruct (DP T0) as (_ & B & C). split; [exact T5|]. split; [unfold freq_known in *; rewrite S2, FC; exact B|].
    intros o2' I SA T2 FK. destruct (SRC _ I) as (o2 & I2 & R2). pose proof (same_of _ _ _ R2) as (A1 & A2 & _). pose proof (relayed_some _ _ _ R2) as (_ & _ & (_ & _ & _ & _ & _ & R6' & _)). destruct (R6' T2) as (_ & T2' & M1 & M2).
    assert (FC2 : fcn_of tx o2' = fcn_of tx o2) by (unfold fcn_of; rewrite A1; reflexivity).
    specialize (C o2 I2 (SS _ _ R2 SA) T2' ltac:(unfold freq_known in *; rewrite <- A2, <- FC2; exact FK)). unfold rate_m_s, freq in *. rewrite S2, FC, L1, L2, A2, FC2, M1, M2. exact C.
Qed.
Lemma settled_after os ord opts : Permutation ord os -> Forall2 (relayed os) ord opts -> Forall obs_ok (RxTx_spec.somes opts) -> Forall (close os) os -> Forall (fun o => o_cn0 o < 254) os -> Forall (settled (RxTx_spec.somes opts)) (RxTx_spec.somes opts).
Proof.
  intros PM F OK CL CN. rewrite Forall_forall in *. intros o' I. destruct (somes_source _ _ _ _ F I) as (o & I0 & R). apply (Permutation_in _ PM) in I0. pose proof (same_of _ _ _ R) as (S1 & S2 & S3). destruct (relayed_some _ _ _ R) as (NQ & MK & RC).
  split; [exact (OK _ I)|]. split; [|split; [|split]].
  - destruct RC as (_ & _ & _ & _ & _ & _ & _ & R8). apply R8. exact (CN _ I0).
  - unfold of_cons. rewrite S2. exact NQ.
  - rewrite S2. exact MK.
  - eapply close_after; [exact PM|exact F|exact R|exact (CL _ I0)].
Qed.

(** and can be sent again *)
Lemma somes_keys os ord opts : Forall2 (relayed os) ord opts -> NoDup (map (fun o => (o_sat o, sig_of code_of o)) ord) -> NoDup (map (fun o => (o_sat o, sig_of code_of o)) (RxTx_spec.somes opts)).
Proof.
  induction 1 as [|o r ord opts R F IH]; intros N; [constructor|]. change (RxTx_spec.somes (r :: opts)) with ((match r with Some o => [o] | None => [] end) ++ RxTx_spec.somes opts). cbn [map] in N. inversion N as [|x l N1 N2]; subst.
  destruct r as [o'|]; [|exact (IH N2)]. cbn [app map]. constructor; [|exact (IH N2)]. intros I. apply N1. apply in_map_iff in I. destruct I as (x & E & I). destruct (somes_source _ _ _ _ F I) as (o2 & I2 & R2). apply in_map_iff. exists o2. split; [|exact I2].
  destruct (same_of _ _ _ R) as (A & B & _), (same_of _ _ _ R2) as (A2 & B2 & _). congruence.
Qed.
Lemma somes_short {X} (l : list X) opts : Forall2 (fun x r => True) l (opts : list (option pobs)) -> len (RxTx_spec.somes opts) <= len l.
Proof. induction 1 as [|x r l opts _ F IH]; [cbn; lia|]. change (RxTx_spec.somes (r :: opts)) with ((match r with Some o => [o] | None => [] end) ++ RxTx_spec.somes opts). rewrite len_app, len_cons. assert (B : len (match r with Some o => [o] | None => [] end) <= 1) by (destruct r; vm_compute; discriminate). lia. Qed.
Lemma sats_mono c a b : (forall o, In o a -> exists x, In x b /\ o_sat o = o_sat x /\ sig_of code_of o = sig_of code_of x) ->
  distinct_sats (obs_of code_of c a) <= distinct_sats (obs_of code_of c b) /\ distinct_sigs code_of (obs_of code_of c a) <= distinct_sigs code_of (obs_of code_of c b).
Proof.
  intros H.
  assert (X : forall o, In o (obs_of code_of c a) -> exists x, In x (obs_of code_of c b) /\ o_sat o = o_sat x /\ sig_of code_of o = sig_of code_of x).
  { intros o I. unfold obs_of in *. apply filter_In in I. destruct I as [I P]. destruct (H o I) as (x & A & B & C). exists x. split; [|auto]. apply filter_In. split; [exact A|]. rewrite <- C. exact P. }
  unfold distinct_sats, distinct_sigs, len. split; apply inj_le; apply NoDup_incl_length; try apply NoDup_nodup; intros y Hy; apply nodup_In; apply nodup_In in Hy; apply in_map_iff in Hy; destruct Hy as (o & <- & I); destruct (X o I) as (x & A & B & C); apply in_map_iff; exists x; split; auto.
Qed.
Lemma sendable_after e ord opts e1 : sendable code_of e -> Permutation ord (e_obs e) -> Forall2 (relayed (e_obs e)) ord opts -> Forall obs_ok (RxTx_spec.somes opts) ->
  e_hdr e1 = e_hdr e -> e_obs e1 = RxTx_spec.somes opts -> e_obs e1 <> [] -> sendable code_of e1.
Proof.
  intros (TOW & (PL & ND & CNT) & RG & L & _) PM F OK HD EO NE. unfold sendable. rewrite HD, EO in *.
  assert (SRC : forall o', In o' (RxTx_spec.somes opts) -> exists o, In o (e_obs e) /\ relayed (e_obs e) o (Some o')).
  { intros o' I. destruct (somes_source _ _ _ _ F I) as (o & A & B). exists o. split; [eapply Permutation_in; eassumption|exact B]. }
  split; [exact TOW|]. split; [split; [|split]|split; [|split]].
  - rewrite Forall_forall in *. intros o' I. destruct (SRC _ I) as (o & I0 & R). destruct (same_of _ _ _ R) as (A & B & _). destruct (PL _ I0) as (c & i & j & C1 & C2). exists c, i, j. split; [exact C1|]. unfold placed in *. rewrite A, B. exact C2.
  - eapply somes_keys; [exact F|]. eapply Permutation_NoDup; [|exact ND]. apply Permutation_map. symmetry. exact PM.
  - intros c. specialize (CNT c). destruct (sats_mono c (RxTx_spec.somes opts) (e_obs e)) as [M1 M2].
    { intros o' I. destruct (SRC _ I) as (o & I0 & R). destruct (same_of _ _ _ R) as (A & B & _). exists o. auto. }
    destruct CNT as [CNT0 CNT]. split; [etransitivity; [exact M1|exact CNT0]|]. etransitivity; [|exact CNT]. apply Z.mul_le_mono_nonneg; try assumption; apply len_nonneg.
  - rewrite Forall_forall in *. intros o' I. destruct (SRC _ I) as (o & I0 & R). destruct (same_of _ _ _ R) as (_ & _ & S3). specialize (RG _ I0). destruct RG as (_ & _ & _ & _ & _ & _ & _ & _ & _ & G1 & G2).
    apply relayed_some in R. destruct R as (_ & _ & (_ & _ & R3 & _ & _ & R6 & _)). destruct (OK _ I) as (P1 & P2 & P3 & P4 & P5 & P6 & P7 & P8 & F0 & F1 & F3 & _). unfold obs_in_range, byte. rewrite S3 in P1.
    split; [rewrite S3; exact P1|]. split; [exact P2|]. split; [exact P3|]. split; [exact P4|]. split; [exact P5|]. split; [lia|]. split; [lia|]. split; [lia|]. split; [exact R3|]. split; [rewrite S3; exact G1|].
    destruct (flag o' 3) eqn:T; [destruct (R6 eq_refl) as (_ & _ & -> & _); exact G2|]. destruct (F3 T) as [-> _]. lia.
  - etransitivity; [|exact L]. rewrite <- (Permutation_length_len ord (e_obs e) PM). apply (somes_short ord). clear -F. induction F; constructor; auto.
  - destruct (RxTx_spec.somes opts) as [|o' r] eqn:Q; [congruence|]. constructor. destruct (SRC o' ltac:(left; reflexivity)) as (o & _ & R). destruct (same_of _ _ _ R) as (_ & B & _). destruct (relayed_some _ _ _ R) as (NQ & _). unfold of_cons. rewrite B. exact NQ.
Qed.
End P.
